(** Predictions at the edges: no usable weight, no vote, rules without
    prediction; the stacked activations of rules that do not stack; names. *)
From Coq Require Import List ZArith QArith Bool String Ascii Lia Lqa.
From Coq Require Import List.
From Verif Require Import Base Num Arith CondModel CondSpec CondBase ThrModel ThrProofs MetModel MetSpec MetReg MetClass RuleModel
  RuleSpec RuleProofs RuleValues RuleEval RuleMisc PredModel PredSpec PredReg PredEqual PredStack PredVote PredMode PredMisc SetModel SetSpec SetBase.
Import ListNotations.
Open Scope string_scope.
Open Scope list_scope.
Open Scope Z_scope.

(** ** Vocabulary *)

(** No weight of the Series is usable. *)
Definition weightless (ws : list (string * num)) : Prop := forall s, unweighted ws s.

(** Different names *)
Definition named (E : env) (rules : list rule) : Prop :=
  exists names, Forall2 (called E) rules names /\ NoDup names.

(** The rule is not active anywhere. *)
Definition nowhere (xs : option table) (r : rule) : Prop :=
  exists v, working r xs v /\ bits v /\ forall i, nth i v 0 <> 1.

(** The rule has no prediction. *)
Definition abstains (r : rule) : Prop :=
  getattr r "prediction" = Ok none \/ getattr r "prediction" = Ok (number NaN).

Definition casts_or_not {A} (value : A -> obj) (xs : option table) (r : rule) (o : option (ballot A)) : Prop :=
  casts_one value xs r o \/ (o = None /\ abstains r).

Lemma filter_none {A} (f : A -> bool) l : (forall x, In x l -> f x = false) -> filter f l = [].
Proof. induction l as [|x t IH]; intros H; auto. cbn [filter]. rewrite H by (left; auto). apply IH. intros y Y. apply H. right. auto. Qed.

(** ** Weights that are all 0 or NaN *)

Lemma weightless_cell ws s w a : weightless ws -> dget s ws = Some w -> zero_nan (nmul (numz a) w) = NaN.
Proof.
  intros W D. apply dget_some in D. destruct (W s w D) as [->|Z].
  - reflexivity.
  - destruct w as [| |q|]; cbn in Z; try contradiction. unfold zero_nan. cbn [numz nmul].
    replace (neqb (Fin (inject_Z a * q)) (Fin 0)) with true; auto. symmetry. cbn [neqb]. apply Qeq_bool_iff. rewrite Z. ring.
Qed.

Lemma init_weightless {A} (isna : A -> bool) pv st ws : weightless ws ->
  init_weights_stacked isna pv (frame_times NaN (fun a x => nmul (numz a) x) st ws) = Err EValue.
Proof.
  intros W. unfold init_weights_stacked.
  destruct (match f_columns (frame_times NaN (fun (a : Z) (x : num) => nmul (numz a) x) st ws) with
            | [] => true | _ => (f_rows (frame_times NaN (fun (a : Z) (x : num) => nmul (numz a) x) st ws) =? 0)%nat end); auto.
  replace (filter _ (map _ (f_columns (frame_times NaN (fun a x => nmul (numz a) x) st ws)))) with (@nil (string * list num)).
  - cbn [map mem existsb]. replace (filter _ (f_columns pv)) with (@nil (string * list A)); auto.
    symmetry. induction (f_columns pv); auto.
  - symmetry. apply filter_none. intros c I. apply in_map_iff in I as (d & <- & I). cbn [snd].
    apply not_true_is_false. intros X. apply existsb_exists in X as (x & Y & X). apply in_map_iff in Y as (y & <- & Y).
    unfold frame_times in I. cbn [f_columns] in I. apply in_app_iff in I as [I|I]; apply in_map_iff in I as (e & <- & I); cbn [snd] in Y.
    + destruct (dget (fst e) ws) as [w|] eqn:D; apply in_map_iff in Y as (a & <- & _); [|discriminate].
      destruct (a =? 0); [discriminate|]. pose proof (weightless_cell ws _ w a W D) as Z. unfold zero_nan in Z. rewrite Z in X. discriminate.
    + apply repeat_spec in Y. subst y. discriminate.
Qed.

(** Series of predictions *)

Definition num_of (o : obj) : num := match o with OVal (XNum x) => x | _ => NaN end.
Definition label_of (o : obj) : label := match o with OVal (XText s) => LText s | _ => nan_label end.

Lemma listed E rules : named E rules -> (forall r, In r rules -> exists o, getattr r "prediction" = Ok o) ->
  exists l, by_name E prediction rules = Ok l /\
    Forall2 (fun r p => called E r (fst p) /\ getattr r "prediction" = Ok (snd p)) rules l /\ NoDup (map fst l).
Proof.
  intros (names & F & N) P.
  assert (X : exists l, Forall2 (fun r p => called E r (fst p) /\ getattr r "prediction" = Ok (snd p)) rules l /\ map fst l = names).
  { clear N. induction F as [|r s rules names C _ IH].
    - exists []. auto.
    - destruct IH as (l & L & M); [intros r' I; apply P; right; auto|]. destruct (P r) as (o & O); [left; auto|].
      exists ((s, o) :: l). split; [constructor; auto|]. cbn. f_equal. auto. }
  destruct X as (l & L & <-). exists l. split; auto. apply by_name_ok; auto.
  eapply forall2_weaken; [|exact L]. intros r p (C & Q). rewrite prediction_attr in Q. split; auto. apply called_name. auto.
Qed.

Lemma number_series_ok l : (forall p, In p l -> snd p = none \/ exists x, snd p = number x) -> (exists p x, In p l /\ snd p = number x) ->
  number_series l = Ok (map (fun p => (fst p, num_of (snd p))) l).
Proof.
  intros H (p & x & I & X). unfold number_series.
  replace (forallb _ l) with false.
  - clear p x I X. induction l as [|p t IH]; auto. cbn [map rseq rbind].
    rewrite IH by (intros q Q; apply H; right; auto). destruct (H p) as [-> |(x & ->)]; [left; auto| |]; reflexivity.
  - symmetry. apply not_true_is_false. intros F. rewrite forallb_forall in F. specialize (F p I). rewrite X in F. discriminate.
Qed.

Lemma text_series_ok l : (forall p, In p l -> snd p = number NaN \/ exists s, snd p = text s) ->
  text_series l = Ok (map (fun p => (fst p, label_of (snd p))) l).
Proof.
  intros H. unfold text_series. induction l as [|p t IH]; auto. cbn [map rseq rbind].
  rewrite IH by (intros q Q; apply H; right; auto). destruct (H p) as [-> |(x & ->)]; [left; auto| |]; reflexivity.
Qed.

Lemma not_empty {A B} (nan : B) (f : Z -> A -> B) st s : s <> [] -> (0 < f_rows st)%nat -> is_empty (frame_times nan f st s) = false.
Proof.
  intros S N. unfold is_empty. destruct (f_columns (frame_times nan f st s)) as [|c t] eqn:C.
  - exfalso. unfold frame_times in C. cbn [f_columns] in C. apply app_eq_nil in C as (C1 & C2). apply map_eq_nil in C1. apply map_eq_nil in C2.
    rewrite C1 in C2. destruct s; [congruence|]. cbn in C2. discriminate.
  - unfold frame_times. cbn [f_rows]. apply Nat.eqb_neq. lia.
Qed.

Lemma named_some E rules l : rules <> [] ->
  Forall2 (fun r (p : string * obj) => called E r (fst p) /\ getattr r "prediction" = Ok (snd p)) rules l -> l <> [].
Proof. intros R F ->. inversion F. congruence. Qed.

Lemma forall2_back {A B} (P : A -> B -> Prop) l m y : Forall2 P l m -> In y m -> exists x, In x l /\ P x y.
Proof.
  induction 1 as [|a b l m p _ IH]; intros I; [contradiction|]. destruct I as [<-|I]; [exists a; split; auto; left; auto|].
  destruct (IH I) as (x & X & Y). exists x. split; auto. right. auto.
Qed.

Lemma weightless_numbers E rules st ws : named E rules -> rules <> [] -> predicts_numbers rules -> (0 < f_rows st)%nat -> weightless ws ->
  predict_stacked E KRegression rules st (Some (WSeries ws)) = Err EValue.
Proof.
  intros N R P L W. destruct (listed E rules N) as (l & B & F & ND).
  { intros r I. destruct (P r I) as (p & Q). eauto. }
  pose proof (named_some _ _ _ R F) as LN.
  unfold predict_stacked. rewrite B. cbn [rbind].
  assert (NS : number_series l = Ok (map (fun p => (fst p, num_of (snd p))) l)).
  { assert (K : forall p, In p l -> exists x, snd p = number x).
    { intros p I. destruct (forall2_back _ _ _ _ F I) as (r & Ir & _ & Q). destruct (P r Ir) as (x & X). rewrite X in Q. injection Q. eauto. }
    apply number_series_ok; [auto|]. destruct l as [|p l]; [congruence|]. destruct (K p) as (x & X); [left; auto|]. exists p, x. split; auto. left. auto. }
  destruct rules as [|r rules]; [congruence|]. destruct (P r) as (p & Q); [left; auto|]. rewrite prediction_attr in Q. rewrite Q. cbn [rbind].
  rewrite number_not_text, NS. cbn [rbind]. rewrite not_empty; auto; [|intros X; apply map_eq_nil in X; auto].
  cbn [weights_of rbind]. unfold weighted_regressor_stacked. rewrite init_weightless; auto.
Qed.

Lemma weightless_texts E rules st ws : named E rules -> rules <> [] -> predicts_texts rules -> (0 < f_rows st)%nat -> weightless ws ->
  predict_stacked E KClassification rules st (Some (WSeries ws)) = Err EValue.
Proof.
  intros N R P L W. destruct (listed E rules N) as (l & B & F & ND).
  { intros r I. destruct (P r I) as (p & Q & _). eauto. }
  pose proof (named_some _ _ _ R F) as LN.
  unfold predict_stacked. rewrite B. cbn [rbind].
  assert (NS : text_series l = Ok (map (fun p => (fst p, label_of (snd p))) l)).
  { apply text_series_ok. intros p I. destruct (forall2_back _ _ _ _ F I) as (r & Ir & _ & Q). destruct (P r Ir) as (x & X & _). rewrite X in Q. injection Q. eauto. }
  destruct rules as [|r rules]; [congruence|]. destruct (P r) as (p & Q & _); [left; auto|]. rewrite prediction_attr in Q. rewrite Q. cbn [rbind].
  rewrite NS. cbn [rmap rbind]. rewrite not_empty; auto; [|intros X; apply map_eq_nil in X; auto].
  cbn [weights_of rbind]. unfold weighted_classificator_stacked. rewrite init_weightless; auto.
Qed.

Lemma weightless_stacked E shared k rules st ws : named E rules -> rules <> [] -> (0 < f_rows st)%nat -> weightless ws ->
  (k = KRegression /\ predicts_numbers rules) \/ (k = KClassification /\ predicts_texts rules) ->
  fst (predict_rules E true shared (Some k) rules (Some st) None (Some (WSeries ws))) = Err EValue.
Proof.
  intros N R L W K. unfold predict_rules. destruct rules as [|r rules]; [congruence|]. cbn [fst rbind].
  destruct K as [(-> & P)|(-> & P)]; [apply weightless_numbers|apply weightless_texts]; auto.
Qed.

Lemma weightless_stacked_on E shared k rules st t n columns ws : vectors E (Some t) rules n columns -> rules <> [] -> weightless ws ->
  (k = KRegression /\ predicts_numbers rules) \/ (k = KClassification /\ predicts_texts rules) ->
  fst (predict_rules E true shared (Some k) rules (Some st) (Some t) (Some (WSeries ws))) = Err EValue.
Proof.
  intros V R W K. rewrite (stacked_frame E rules n st (Some t) k _ shared columns V); auto; [|discriminate].
  assert (N : named E rules).
  { destruct (vectors_called _ _ _ _ _ V) as (F & N). exists (map fst columns). split; auto. apply forall2_map. auto. }
  assert (L : (0 < n)%nat) by (destruct V as (_ & _ & V); auto).
  destruct K as [(-> & P)|(-> & P)]; [apply weightless_numbers|apply weightless_texts]; auto.
Qed.

(** ** No vote *)

Lemma vote_nowhere E ws xs r s preds : NoDup (map fst ws) -> called E r s -> unweighted ws s \/ nowhere xs r ->
  vote_step E ws xs r preds = Ok preds.
Proof.
  intros N C H. unfold vote_step. rewrite (called_name E r s C). cbn [rbind].
  destruct (weight_of_ok ws N s) as (o & O). destruct H as [U|(v & K & B & Z)].
  - rewrite weight_ignored; auto.
  - rewrite O. cbn [rbind]. destruct o as [w|]; auto. rewrite (vote_vector xs r v K B). cbn [rbind].
    apply (nones_zero v B) in Z. destruct v as [|a v].
    + destruct xs; auto.
    + rewrite Z. auto.
Qed.

Lemma vote_loop_nowhere E ws xs rules : NoDup (map fst ws) ->
  (forall r, In r rules -> exists s, called E r s /\ (unweighted ws s \/ nowhere xs r)) -> vote_loop E ws xs rules [] = Ok [].
Proof.
  intros N. induction rules as [|r t IH]; intros H; auto. cbn [vote_loop]. destruct (H r) as (s & C & K); [left; auto|].
  rewrite (vote_nowhere E ws xs r s []); auto. cbn [rbind]. apply IH. intros r' I. apply H. right. auto.
Qed.

Lemma no_vote E sf shared rules st xs ws : unstacked sf st -> rules <> [] -> NoDup (map fst ws) ->
  (forall r, In r rules -> exists s, called E r s /\ (unweighted ws s \/ nowhere xs r)) ->
  fst (predict_rules E sf shared (Some KClassification) rules st xs (Some (WSeries ws))) = Err EValue.
Proof.
  intros U R N H. rewrite route_unstacked by auto. unfold predict_unstacked. cbn [fst weights_of rbind].
  unfold weighted_classificator_unstacked. rewrite vote_loop_nowhere by auto. destruct rules; [congruence|]. reflexivity.
Qed.

Lemma dset_keys n (d : series) x : In x (map fst (dset n (Fin 1) d)) -> x = n \/ In x (map fst d).
Proof.
  induction d as [|[a b] t IH]; cbn; [intuition auto|]. destruct (str_eqb n a) eqn:X; cbn; [intuition auto|].
  intros [<-|I]; auto. destruct (IH I); auto.
Qed.

Lemma fold_dset_keys names : forall d : series, NoDup (map fst d) -> NoDup (map fst (fold_left (fun d n => dset n (Fin 1) d) names d)).
Proof.
  induction names as [|n t IH]; intros d N; auto. cbn [fold_left]. apply IH. clear IH t.
  induction d as [|[a b] t IH]; cbn; [constructor; auto|]. cbn in N. inversion N as [|? ? N1 N2]. subst.
  destruct (str_eqb n a) eqn:X; cbn.
  - apply String.eqb_eq in X. subst. constructor; auto.
  - constructor; auto. intros I. apply dset_keys in I as [-> |I]; auto. unfold str_eqb in X. rewrite String.eqb_refl in X. discriminate.
Qed.

Lemma no_equal_vote E sf shared rules st xs : unstacked sf st -> rules <> [] ->
  (forall r, In r rules -> (exists s, called E r s) /\ nowhere xs r) ->
  fst (predict_rules E sf shared (Some KClassification) rules st xs None) = Err EValue.
Proof.
  intros U R H. rewrite route_unstacked by auto. unfold predict_unstacked. cbn [fst].
  unfold equal_classificator_unstacked.
  assert (X : exists names, rseq (map (rule_name E) rules) = Ok names).
  { clear R. induction rules as [|r t IH]; [exists []; auto|]. destruct (H r) as ((s & C) & _); [left; auto|].
    destruct IH as (names & X); [intros r' I; apply H; right; auto|]. exists (s :: names). cbn [map rseq rbind].
    rewrite (called_name E r s C), X. reflexivity. }
  destruct X as (names & ->). cbn [rbind]. unfold weighted_classificator_unstacked.
  rewrite vote_loop_nowhere.
  - destruct rules; [congruence|]. reflexivity.
  - apply fold_dset_keys. constructor.
  - intros r I. destruct (H r I) as ((s & C) & W). eauto.
Qed.

(** ** Rules without prediction *)

Lemma named_vectors E xs rules n columns : vectors E xs rules n columns -> named E rules.
Proof. intros V. destruct (vectors_called _ _ _ _ _ V) as (F & N). exists (map fst columns). split; auto. apply forall2_map. auto. Qed.

(** The columns follow the Series of the predictions. *)
Lemma lookup E rules (columns : list (string * list Z)) l : Forall2 (fun r c => called E r (fst c)) rules columns ->
  Forall2 (fun r (p : string * obj) => called E r (fst p) /\ getattr r "prediction" = Ok (snd p)) rules l ->
  map fst l = map fst columns.
Proof.
  intros F. revert l. induction F as [|r c rules columns C _ IH]; intros l G; inversion G as [|? p ? l' (C' & _) G']; subst; auto.
  cbn. f_equal; auto. eapply called_fun; eauto.
Qed.

Lemma looked_up {A} E rules (columns : list (string * list Z)) l (f : obj -> A) :
  Forall2 (fun r c => called E r (fst c)) rules columns ->
  Forall2 (fun r (p : string * obj) => called E r (fst p) /\ getattr r "prediction" = Ok (snd p)) rules l -> NoDup (map fst l) ->
  Forall2 (fun r c => exists o, getattr r "prediction" = Ok o /\ dget (fst c) (map (fun p => (fst p, f (snd p))) l) = Some (f o)) rules columns.
Proof.
  intros F G N.
  assert (Z : forall p, In p l -> dget (fst p) (map (fun p => (fst p, f (snd p))) l) = Some (f (snd p))).
  { intros p I. apply dget_in; [rewrite map_map; auto|]. apply in_map_iff. exists p. auto. }
  assert (K : forall qs, incl qs l -> Forall2 (fun r (p : string * obj) => called E r (fst p) /\ getattr r "prediction" = Ok (snd p)) rules qs ->
    Forall2 (fun r (c : string * list BinNums.Z) => exists o, getattr r "prediction" = Ok o /\ dget (fst c) (map (fun p => (fst p, f (snd p))) l) = Some (f o)) rules columns).
  { clear G N. induction F as [|r c rules columns C F IH]; intros qs I H; inversion H as [|? p ? qs' (C' & P) H']; subst; constructor.
    - exists (snd p). split; auto. rewrite (called_fun E r _ _ C C'). apply Z. apply I. left. auto.
    - apply (IH qs'); auto. intros x X. apply I. right. auto. }
  apply (K l); auto. intros x X. auto.
Qed.

Section Means.
Variables (E : env) (xs : option table) (n : nat) (s : series).

Definition sits (r : rule) (c : string * list Z) : Prop :=
  working r xs (snd c) /\ bits (snd c) /\ List.length (snd c) = n /\ (0 < n)%nat /\
  exists o, getattr r "prediction" = Ok o /\ dget (fst c) s = Some (num_of o).

Lemma sits_cells r c b : sits r c -> casts_one regression_number xs r (Some b) ->
  b_active b = snd c /\ b_weight b = 1%Q /\
  forall i, (i < n)%nat -> value_cell s c i = if nth i (snd c) 0 =? 1 then Fin (1 * b_value b) else NaN.
Proof.
  intros (F2 & F3 & F4 & F5 & p & P & D) C. inversion C as [|q v (_ & Q & K & _ & _)]; subst. cbn [b_active b_value b_weight].
  assert (X : v = snd c) by (apply (working_fun r xs); auto). subst v. split; auto. split; auto.
  rewrite Q in P. injection P as <-. intros i Hi. unfold value_cell, product_column. rewrite D. cbn [snd num_of regression_number].
  rewrite nth_map with (d := 0) by auto. destruct (nth_bits _ i F3) as [Z|Z]; rewrite Z; auto.
Qed.

Lemma sits_absent r c : sits r c -> casts_one regression_number xs r None -> False.
Proof.
  intros (F2 & F3 & F4 & F5 & _) C. inversion C as [G|]; subst. destruct G as [(-> & N)|W].
  - destruct F2 as (a & A & _). congruence.
  - pose proof (working_fun _ _ _ _ F2 W) as X. rewrite X in F5. cbn in F5. lia.
Qed.

Lemma sits_abstains r c i : sits r c -> abstains r -> (i < n)%nat -> value_cell s c i = NaN.
Proof.
  intros (F2 & F3 & F4 & F5 & o & P & D) A I. unfold value_cell, product_column. rewrite D. cbn [snd].
  assert (X : num_of o = NaN) by (destruct A as [A|A]; rewrite A in P; injection P as <-; auto). rewrite X.
  rewrite nth_map with (d := 0) by lia. destruct (nth i (snd c) 0 =? 0); auto.
Qed.

Lemma row_means_or_not rules columns bs : Forall2 sits rules columns -> collected (casts_or_not regression_number xs) rules bs ->
  (forall b, In b bs -> b_weight b = 1%Q) /\
  forall i, (i < n)%nat -> exists qs, drop_nan (map (fun c => value_cell s c i) columns) = map Fin qs /\
    (qsum qs == total i bs)%Q /\ (inject_Z (Z.of_nat (List.length qs)) == weight i bs)%Q.
Proof.
  intros F. revert bs. induction F as [|r c rules columns F _ IH]; intros bs C.
  - inversion C; subst. split; [intros b []|]. intros i I. exists []. split; auto. split; reflexivity.
  - inversion C as [|r' t bs' Cr Ct|r' t b bs' Cr Ct]; subst.
    + destruct Cr as [Cr|(_ & A)]; [destruct (sits_absent r c); auto|]. destruct (IH bs Ct) as (IW & IM). split; auto.
      intros i I. destruct (IM i I) as (qs & S0 & S1). exists qs. split; auto. cbn [map]. rewrite (sits_abstains r c i F A I). auto.
    + destruct Cr as [Cr|(X & _)]; [|discriminate].
      destruct (sits_cells r c b F Cr) as (A & W & V). destruct (IH bs' Ct) as (IW & IM). split; [intros b' [<-|I]; auto|].
      intros i I. destruct (IM i I) as (qs & S0 & S1 & S2).
      cbn [map]. rewrite (V i I), weight_cons, total_cons, A, W. destruct (nth i (snd c) 0 =? 1).
      * exists ((1 * b_value b)%Q :: qs). split; [cbn; f_equal; auto|]. split.
        -- unfold qsum in *. cbn [fold_right]. rewrite S1. ring.
        -- cbn [List.length]. rewrite Nat2Z.inj_succ. unfold Z.succ. rewrite inject_Z_plus, S2. change (inject_Z 1) with 1%Q. ring.
      * exists qs. auto.
Qed.

End Means.

Lemma abstaining_means E shared rules st xs bs n :
  stacks E xs rules n st -> (forall r, In r rules -> abstains r \/ exists p, getattr r "prediction" = Ok (number p)) ->
  (exists r p, In r rules /\ getattr r "prediction" = Ok (number p)) ->
  collected (casts_or_not regression_number xs) rules bs ->
  exists l, fst (predict_rules E true shared (Some KRegression) rules (Some st) xs None) = Ok (Numbers l) /\
    each_row n NaN l (fun i x => is_mean i bs x).
Proof.
  intros (columns & V & X) P (r1 & p1 & I1 & P1) C.
  assert (RN : rules <> []) by (intros ->; contradiction).
  rewrite (stacked_frame E rules n st xs KRegression None shared columns); auto.
  destruct (vectors_called _ _ _ _ _ V) as (F & NC).
  destruct (listed E rules (named_vectors _ _ _ _ _ V)) as (l & B & FL & ND).
  { intros r I. destruct (P r I) as [[Q|Q]|(p & Q)]; eauto. }
  set (s := map (fun p : string * obj => (fst p, num_of (snd p))) l).
  assert (NS : number_series l = Ok s).
  { apply number_series_ok.
    - intros p I. destruct (forall2_back _ _ _ _ FL I) as (r & Ir & _ & Q).
      destruct (P r Ir) as [[Y|Y]|(x & Y)]; rewrite Y in Q; injection Q; eauto.
    - destruct (proj1 (forall2_in _ _ _ FL) r1 I1) as (p & Ip & _ & Q). rewrite P1 in Q. injection Q as Q. exists p, p1. auto. }
  assert (FS : Forall2 (sits xs n s) rules columns).
  { destruct V as (FV & _ & n0). eapply forall2_weaken; [|exact (forall2_both _ _ _ _ FV (looked_up E rules columns l num_of F FL ND))].
    intros r c ((X1 & X2 & X3 & X4) & X5). unfold sits. auto 10. }
  assert (n0 : (0 < n)%nat) by (destruct V as (_ & _ & V'); auto).
  assert (M : map fst s = map fst columns) by (unfold s; rewrite map_map; apply (lookup E rules columns l); auto).
  assert (H : predict_stacked E KRegression rules (mkFrame n columns) None =
    Ok (Numbers (equal_regressor_stacked (frame_times NaN (fun a x => nmul (numz a) x) (mkFrame n columns) s)))).
  { unfold predict_stacked. rewrite B. cbn [rbind]. pose proof (vectors_nonempty _ _ _ _ _ V RN) as CN.
    destruct rules as [|r rules]; [congruence|].
    destruct (P r) as [[Q|Q]|(p & Q)]; try (left; auto; fail); rewrite prediction_attr in Q; rewrite Q; cbn [rbind none number];
      rewrite NS; cbn [rbind]; rewrite product_not_empty; auto. }
  rewrite H. unfold equal_regressor_stacked, by_rows. rewrite frame_times_columns. rewrite no_extra by auto. rewrite app_nil_r. cbn [f_rows].
  eexists. split; [reflexivity|]. split; [rewrite map_length, seq_length; auto|].
  intros i I. rewrite nth_map with (d := O) by (rewrite seq_length; auto). rewrite seq_nth by auto. cbn [Nat.add].
  rewrite row_line. destruct (row_means_or_not xs n s rules columns bs FS C) as (W & S). destruct (S i I) as (qs & S0 & S1 & S2).
  unfold nanmean, nmean, nsum. change (fun c => nth i (snd (product_column NaN (fun (a : Z) (x : num) => nmul (numz a) x) s c)) NaN) with
    (fun c : string * list Z => value_cell s c i). rewrite S0.
  destruct (nsum_fins qs 0) as (t & T1 & T2). rewrite T1. unfold nat_num. rewrite map_length. apply mean_sums.
  - exists t. split; auto. rewrite T2, S1. ring.
  - eexists. split; [reflexivity|]. auto.
  - apply one_weighs. auto.
Qed.

Section Classes.
Variables (E : env) (xs : option table) (n : nat) (s : list (string * label)).

Definition stands (r : rule) (c : string * list Z) : Prop :=
  working r xs (snd c) /\ bits (snd c) /\ List.length (snd c) = n /\ (0 < n)%nat /\
  exists o, getattr r "prediction" = Ok o /\ dget (fst c) s = Some (label_of o).

Definition class_cell (c : string * list Z) (i : nat) : label := nth i (snd (product_column nan_label (fun _ x => x) s c)) nan_label.

Lemma stands_cell r c o i : stands r c -> getattr r "prediction" = Ok o -> (i < n)%nat ->
  class_cell c i = if nth i (snd c) 0 =? 1 then label_of o else nan_label.
Proof.
  intros (F2 & F3 & F4 & F5 & p & P & D) O I. rewrite O in P. injection P as <-. unfold class_cell, product_column. rewrite D. cbn [snd].
  rewrite nth_map with (d := 0) by lia. destruct (nth_bits _ i F3) as [Z|Z]; rewrite Z; auto.
Qed.

Lemma row_classes_or_not rules columns bs : Forall2 stands rules columns -> collected (casts_or_not class_object xs) rules bs ->
  (forall r, In r rules -> getattr r "prediction" = Ok (number NaN) \/ exists p, getattr r "prediction" = Ok (text p) /\ p <> "nan") ->
  (forall b, In b bs -> PredSpec.comparable (b_value b)) ->
  (forall b, In b bs -> b_weight b = 1%Q) /\
  forall i, (i < n)%nat -> classes_of (at_row i bs) (seen (map (fun c => class_cell c i) columns)).
Proof.
  intros F. revert bs. induction F as [|r c rules columns F _ IH]; intros bs C P CM.
  - inversion C; subst. split; [intros b []|]. intros i I. constructor.
  - assert (PT : forall r, In r rules -> getattr r "prediction" = Ok (number NaN) \/ exists p, getattr r "prediction" = Ok (text p) /\ p <> "nan")
      by (intros r' I; apply P; right; auto).
    inversion C as [|r' t bs' Cr Ct|r' t b bs' Cr Ct]; subst.
    + destruct Cr as [Cr|(_ & A)].
      * exfalso. destruct F as (F2 & F3 & F4 & F5 & _). inversion Cr as [D|]; subst. destruct D as [(-> & N)|W].
        -- destruct F2 as (a & A & _). congruence.
        -- pose proof (working_fun _ _ _ _ F2 W) as X. rewrite X in F5. cbn in F5. lia.
      * destruct (IH bs Ct PT CM) as (IW & IM). split; auto. intros i I. cbn [map].
        replace (class_cell c i) with nan_label; [apply IM; auto|].
        destruct A as [A|A]; rewrite (stands_cell r c _ i F A I); destruct (nth i (snd c) 0 =? 1); auto.
    + destruct Cr as [Cr|(X & _)]; [|discriminate]. inversion Cr as [|q v (_ & Q & K & _ & _)]; subst.
      assert (X : v = snd c) by (apply (working_fun r xs); destruct F as (F2 & _); auto). subst v.
      destruct (IH bs' Ct PT (fun b B => CM b (or_intror B))) as (IW & IM). split; [intros b [<-|I]; auto|].
      assert (T : exists p, q = LText p /\ p <> "nan").
      { pose proof (CM _ (or_introl eq_refl)) as Cq. cbn [b_value] in Cq.
        destruct (P r) as [A|(p & A & N)]; [left; auto| |]; rewrite A in Q; injection Q as Q; destruct q as [x|x]; cbn in Q; try discriminate.
        - injection Q as <-. destruct Cq. auto.
        - injection Q as <-. eauto. }
      destruct T as (p & -> & N). intros i I. cbn [map]. rewrite (stands_cell r c _ i F Q I). cbn [class_object label_of].
      unfold at_row. cbn [filter b_active]. destruct (nth i (snd c) 0 =? 1); [|apply IM; auto].
      rewrite seen_cons. cbn [clean]. rewrite str_neq by auto. cbn [is_nan_label]. constructor; [|apply IM; auto].
      cbn [b_value]. apply comparable_same. discriminate.
Qed.

End Classes.

Lemma tied_votes E shared r rules st xs bs n p :
  stacks E xs (r :: rules) n st -> getattr r "prediction" = Ok (text p) ->
  (forall r', In r' (r :: rules) -> getattr r' "prediction" = Ok (number NaN) \/ exists p, getattr r' "prediction" = Ok (text p) /\ p <> "nan") ->
  collected (casts_or_not class_object xs) (r :: rules) bs -> (forall b, In b bs -> PredSpec.comparable (b_value b)) ->
  exists l, fst (predict_rules E true shared (Some KClassification) (r :: rules) (Some st) xs None) = Ok (Outcomes l) /\
    put_rows n (fun i => wins i bs) l.
Proof.
  intros (columns & V & X) Pr P C CM.
  rewrite (stacked_frame E (r :: rules) n st xs KClassification None shared columns); auto; [|discriminate].
  destruct (vectors_called _ _ _ _ _ V) as (F & NC).
  destruct (listed E (r :: rules) (named_vectors _ _ _ _ _ V)) as (l & B & FL & ND).
  { intros r' I. destruct (P r' I) as [Q|(q & Q & _)]; eauto. }
  set (s := map (fun p : string * obj => (fst p, label_of (snd p))) l).
  assert (NS : text_series l = Ok s).
  { apply text_series_ok. intros q I. destruct (forall2_back _ _ _ _ FL I) as (r' & Ir & _ & Q).
    destruct (P r' Ir) as [Y|(x & Y & _)]; rewrite Y in Q; injection Q; eauto. }
  assert (FS : Forall2 (stands xs n s) (r :: rules) columns).
  { destruct V as (FV & _ & n0). eapply forall2_weaken; [|exact (forall2_both _ _ _ _ FV (looked_up E (r :: rules) columns l label_of F FL ND))].
    intros r' c ((X1 & X2 & X3 & X4) & X5). unfold stands. auto 10. }
  assert (n0 : (0 < n)%nat) by (destruct V as (_ & _ & V'); auto).
  assert (M : map fst s = map fst columns) by (unfold s; rewrite map_map; apply (lookup E (r :: rules) columns l); auto).
  assert (H : predict_stacked E KClassification (r :: rules) (mkFrame n columns) None =
    Ok (Outcomes (equal_classificator_stacked (frame_times nan_label (fun _ c => c) (mkFrame n columns) s)))).
  { unfold predict_stacked. rewrite B. cbn [rbind]. assert (RN : r :: rules <> []) by discriminate. pose proof (vectors_nonempty _ _ _ _ _ V RN) as CN.
    rewrite prediction_attr in Pr. rewrite Pr. cbn [rbind text]. rewrite NS. cbn [rbind rmap]. rewrite product_not_empty; auto. }
  rewrite H. rewrite frame_times_columns, no_extra by auto. rewrite app_nil_r.
  destruct (row_classes_or_not xs n s (r :: rules) columns bs FS C P CM) as (W & S).
  destruct (rows_decided_frame (product_column nan_label (fun _ c => c) s) n columns (fun i => wins i bs)) as (rs & -> & D).
  { intros i I c. assert (FA : fair bs) by (intros b Ib; rewrite (W b Ib); split; auto; reflexivity).
    rewrite (wins_at_row i bs c FA).
    apply leads_wins; [exact (S i I)|]. intros b Ib. apply filter_In in Ib as (B1 & B2). split; [apply Z.eqb_eq; auto|]. auto. }
  eexists. split; [reflexivity|]. apply put_finish. auto.
Qed.

(** ** Stacked activations *)

Lemma stacked_nothing G xs s : s_rules s = [] -> evaluate_stacked_activations G xs s = Ok (Some (mkFrame 0 [])).
Proof. intros H. unfold evaluate_stacked_activations. rewrite H. auto. Qed.

Lemma stacked_missing G s r : In r (s_rules s) -> (forall v, ~ working r None v) ->
  evaluate_stacked_activations G None s = Ok None.
Proof.
  intros I W. unfold evaluate_stacked_activations. destruct (s_rules s) as [|x t] eqn:X; [contradiction|]. rewrite <- X in *. clear x t X.
  assert (F : forallb activation_available (s_rules s) = false).
  { apply not_true_is_false. intros F. rewrite forallb_forall in F. specialize (F r I). unfold activation_available in F.
    destruct (r_act r) as [a|] eqn:A; [|discriminate]. apply (W (v_bits a)). exists a. split; auto. unfold raw. rewrite F. auto. }
  unfold stack. rewrite F. destruct (s_rules s); auto.
Qed.

Lemma frame_ragged {A} (l : list (string * list A)) c d : In c l -> In d l -> List.length (snd c) <> List.length (snd d) ->
  forallb (fun c => (List.length (snd c) =? match l with [] => O | (_, v) :: _ => List.length v end)%nat) l = false.
Proof.
  intros I J D. apply not_true_is_false. intros F. rewrite forallb_forall in F. pose proof (F c I) as X. pose proof (F d J) as Y.
  apply Nat.eqb_eq in X, Y. congruence.
Qed.

Lemma stacked_ragged G xs s columns c d :
  Forall2 (fun r c => called (g_env G) r (fst c) /\ working r xs (snd c) /\ snd c <> []) (s_rules s) columns -> NoDup (map fst columns) ->
  In c columns -> In d columns -> List.length (snd c) <> List.length (snd d) ->
  evaluate_stacked_activations G xs s = Err EValue.
Proof.
  intros F N I J D. unfold evaluate_stacked_activations.
  destruct (s_rules s) as [|r rules] eqn:R; [inversion F; subst; contradiction|]. rewrite <- R in *. clear r rules R. fold (s_rules s).
  destruct (s_rules s) as [|r rules] eqn:R; [inversion F; subst; contradiction|]. rewrite <- R in *.
  unfold stack. destruct xs as [t|].
  - rewrite (by_name_ok _ _ _ columns); auto.
    + cbn [rbind]. rewrite (frame_ragged columns c d); auto.
    + eapply forall2_weaken; [|exact F]. intros r' e (C & W & _). split; [apply called_name; auto|]. apply evaluated. auto.
  - replace (forallb activation_available (s_rules s)) with true.
    + rewrite (by_name_ok _ _ _ columns); auto.
      * cbn [rbind]. rewrite (frame_ragged columns c d); auto.
      * eapply forall2_weaken; [|exact F]. intros r' e (C & (a & A & V) & E). split; [apply called_name; auto|].
        unfold activation_vector. rewrite A, V. apply raw_inv in V as (_ & V). unfold alen. rewrite V. destruct (snd e); [congruence|]. auto.
    + symmetry. apply forallb_forall. intros r' I'. destruct (proj1 (forall2_in _ _ _ F) r' I') as (e & _ & _ & (a & A & V) & _).
      unfold activation_available. rewrite A. apply raw_inv in V. tauto.
Qed.

(** ** Names *)

Lemma cond_unnamed E r : r_cond r = None -> rule_name E r = Ok "None".
Proof. intros H. unfold rule_name. rewrite H. auto. Qed.

Lemma cond_empty E r c : r_cond r = Some c -> c_names c = None -> rule_name E r = Ok "empty condition".
Proof. intros H N. unfold rule_name, cond_str. rewrite H, N. auto. Qed.

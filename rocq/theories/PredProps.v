(** Properties of the predictions of rulesets. *)
From Coq Require Import List ZArith QArith Bool String Ascii Lia.
From Coq Require Import List.
From Verif Require Import Base Num CondModel CondSpec CondProofs CondWit ThrModel ThrWit MetModel MetSpec RuleModel RuleSpec RuleWit
  PredModel PredSpec PredReg PredEqual PredStack PredVote PredMode PredMisc PredName PredWit.
Import ListNotations.
Open Scope string_scope.
Open Scope list_scope.
Open Scope Z_scope.

(** ** C45 *)

Theorem C45_mean : forall E sf shared rules st xs bs n,
  unstacked sf st -> collected (casts_one regression_number xs) rules bs -> rows n bs -> starts_well bs ->
  exists l, fst (predict_rules E sf shared (Some KRegression) rules st xs None) = Ok (Numbers l) /\
    each_row n NaN l (fun i x => (List.length (at_row i bs) < 256)%nat -> sum_counts i bs -> is_mean i bs x).
Proof. exact equal_means. Qed.
Print Assumptions C45_mean.

Example C45_mean_ex : exists l,
  fst (predict_rules free false true (Some KRegression) three None None None) = Ok (Numbers l) /\
  Forall2 same_num l [Fin 3; Fin 2; NaN; Fin (3 # 2)].
Proof.
  destruct (C45_mean free false true three None None three_ballots 4 (or_introl eq_refl) three_one three_rows three_start) as (l & L & _).
  exists l. split; [exact L|]. vm_compute in L. injection L as <-. repeat constructor; reflexivity.
Qed.

Theorem C45_weighted_mean : forall E sf shared rules st xs ws bs n,
  unstacked sf st -> NoDup (map fst ws) -> collected (casts E ws regression_number xs) rules bs -> rows n bs -> starts_well bs ->
  exists l, fst (predict_rules E sf shared (Some KRegression) rules st xs (Some (WSeries ws))) = Ok (Numbers l) /\
    each_row n NaN l (fun i x => weighs i bs -> sum_counts i bs -> is_mean i bs x).
Proof. exact weighted_means. Qed.
Print Assumptions C45_weighted_mean.

Example C45_weighted_mean_ex : exists l,
  fst (predict_rules free true false (Some KRegression) three None None (Some (WSeries some_weights))) = Ok (Numbers l) /\
  Forall2 same_num l [Fin (26 # 7); Fin 2; NaN; Fin 4].
Proof.
  destruct (C45_weighted_mean free true false three None None some_weights weighted_ballots 4 (or_intror eq_refl)) as (l & L & _).
  - distinct.
  - apply three_weighted.
  - intros b [<-|[<-|[]]]; reflexivity.
  - right. eexists. eexists. split; [reflexivity|]. discriminate.
  - exists l. split; [exact L|]. vm_compute in L. injection L as <-. repeat constructor; reflexivity.
Qed.

(** ** C46 *)

Theorem C46_stacked_mean : forall E shared rules st xs bs n,
  stacks E xs rules n st -> rules <> [] -> predicts_numbers rules -> collected (casts_one regression_number xs) rules bs ->
  exists l, fst (predict_rules E true shared (Some KRegression) rules (Some st) xs None) = Ok (Numbers l) /\
    each_row n NaN l (fun i x => is_mean i bs x).
Proof. exact equal_stacked. Qed.
Print Assumptions C46_stacked_mean.

Example C46_stacked_mean_ex : exists l,
  fst (predict_rules free true true (Some KRegression) three (Some (stacked_of three_columns)) None None) = Ok (Numbers l) /\
  Forall2 same_num l [Fin 3; Fin 2; NaN; Fin (3 # 2)].
Proof.
  destruct (C46_stacked_mean free true three _ None three_ballots 4 three_stacks ltac:(discriminate) three_numbers three_one) as (l & L & _).
  exists l. split; [exact L|]. vm_compute in L. injection L as <-. repeat constructor; reflexivity.
Qed.

Theorem C46_stacked_weighted_mean : forall E shared rules st xs ws bs n,
  stacks E xs rules n st -> predicts_numbers rules -> NoDup (map fst ws) ->
  collected (casts E ws regression_number xs) rules bs -> somebody n bs ->
  exists l, fst (predict_rules E true shared (Some KRegression) rules (Some st) xs (Some (WSeries ws))) = Ok (Numbers l) /\
    each_row n NaN l (fun i x => weighs i bs -> is_mean i bs x).
Proof. exact weighted_stacked. Qed.
Print Assumptions C46_stacked_weighted_mean.

Example C46_stacked_weighted_mean_ex : exists l,
  fst (predict_rules free true true (Some KRegression) three (Some (stacked_of three_columns)) None (Some (WSeries some_weights))) = Ok (Numbers l) /\
  Forall2 same_num l [Fin (26 # 7); Fin 2; NaN; Fin 4].
Proof.
  destruct (C46_stacked_weighted_mean free true three _ None some_weights weighted_ballots 4 three_stacks three_numbers) as (l & L & _).
  - distinct.
  - apply three_weighted.
  - eexists. exists 0%nat. split; [left; reflexivity|]. split; [lia|reflexivity].
  - exists l. split; [exact L|]. vm_compute in L. injection L as <-. repeat constructor; reflexivity.
Qed.

Theorem C46_agree : forall E sf shared shared' rules st st' xs bs n,
  unstacked sf st -> stacks E xs rules n st' -> predicts_numbers rules ->
  collected (casts_one regression_number xs) rules bs -> rows n bs -> starts_well bs ->
  exists l l', fst (predict_rules E sf shared (Some KRegression) rules st xs None) = Ok (Numbers l) /\
    fst (predict_rules E true shared' (Some KRegression) rules (Some st') xs None) = Ok (Numbers l') /\
    List.length l = n /\ List.length l' = n /\
    forall i, (i < n)%nat -> (List.length (at_row i bs) < 256)%nat -> sum_counts i bs -> same_num (nth i l NaN) (nth i l' NaN).
Proof. exact equal_agree. Qed.
Print Assumptions C46_agree.

Example C46_agree_ex : exists l l',
  fst (predict_rules free false false (Some KRegression) three None None None) = Ok (Numbers l) /\
  fst (predict_rules free true false (Some KRegression) three (Some (stacked_of three_columns)) None None) = Ok (Numbers l') /\
  same_num (nth 0 l NaN) (nth 0 l' NaN).
Proof.
  destruct (C46_agree free false false false three None (stacked_of three_columns) None three_ballots 4 (or_introl eq_refl) three_stacks
    three_numbers three_one three_rows three_start) as (l & l' & L & L' & _ & _ & H).
  exists l, l'. split; [exact L|]. split; [exact L'|]. apply H; [lia|cbn; lia|]. right. right. discriminate.
Qed.

Theorem C46_weighted_agree : forall E sf shared shared' rules st st' xs ws bs n,
  unstacked sf st -> stacks E xs rules n st' -> predicts_numbers rules -> NoDup (map fst ws) ->
  collected (casts E ws regression_number xs) rules bs -> rows n bs -> starts_well bs -> somebody n bs ->
  exists l l', fst (predict_rules E sf shared (Some KRegression) rules st xs (Some (WSeries ws))) = Ok (Numbers l) /\
    fst (predict_rules E true shared' (Some KRegression) rules (Some st') xs (Some (WSeries ws))) = Ok (Numbers l') /\
    List.length l = n /\ List.length l' = n /\
    forall i, (i < n)%nat -> weighs i bs -> sum_counts i bs -> same_num (nth i l NaN) (nth i l' NaN).
Proof. exact weighted_agree. Qed.
Print Assumptions C46_weighted_agree.

Example C46_weighted_agree_ex : exists l l',
  fst (predict_rules free false false (Some KRegression) three None None (Some (WSeries some_weights))) = Ok (Numbers l) /\
  fst (predict_rules free true false (Some KRegression) three (Some (stacked_of three_columns)) None (Some (WSeries some_weights))) = Ok (Numbers l') /\
  same_num (nth 0 l NaN) (nth 0 l' NaN).
Proof.
  destruct (C46_weighted_agree free false false false three None (stacked_of three_columns) None some_weights weighted_ballots 4 (or_introl eq_refl) three_stacks
    three_numbers) as (l & l' & L & L' & _ & _ & H).
  - distinct.
  - apply three_weighted.
  - intros b [<-|[<-|[]]]; reflexivity.
  - right. eexists. eexists. split; [reflexivity|]. discriminate.
  - eexists. exists 0%nat. split; [left; reflexivity|]. split; [lia|reflexivity].
  - exists l, l'. split; [exact L|]. split; [exact L'|]. apply H; [lia|right; discriminate|]. right. right. discriminate.
Qed.

(** ** C47 *)

Theorem C47_majority : forall E sf shared rules st xs bs n,
  unstacked sf st -> (forall r, In r rules -> exists s, called E r s) -> all_present xs rules ->
  collected (casts_one class_object xs) rules bs -> rows n bs -> (forall b, In b bs -> comparable (b_value b)) -> somebody n bs ->
  exists l, fst (predict_rules E sf shared (Some KClassification) rules st xs None) = Ok (Outcomes l) /\
    each_row n Frame l (fun i x => exists c, x = Class c /\ is_verdict i bs c).
Proof. exact equal_classes. Qed.
Print Assumptions C47_majority.

Example C47_majority_ex :
  fst (predict_rules free false false (Some KClassification) jury None None None) =
    Ok (Outcomes [Class (LText "red"); Class (LNum NaN); Class (LNum NaN); Class (LText "red")]) /\
  exists l, fst (predict_rules free false false (Some KClassification) jury None None None) = Ok (Outcomes l) /\
    each_row 4 Frame l (fun i x => exists c, x = Class c /\ is_verdict i jury_ballots c).
Proof.
  split; [vm_compute; reflexivity|].
  exact (C47_majority free false false jury None None jury_ballots 4 (or_introl eq_refl) jury_called jury_present jury_one jury_rows
    jury_comparable jury_somebody).
Qed.

Theorem C47_agree : forall E sf shared shared' rules st st' xs bs n i j,
  unstacked sf st -> stacks E xs rules n st' -> predicts_texts rules \/ predicts_numbers rules ->
  collected (casts_one class_object xs) rules bs -> rows n bs -> (forall b, In b bs -> comparable (b_value b)) ->
  (i < j)%nat -> (j < n)%nat -> (exists c, wins i bs c) -> (exists c, wins j bs c) ->
  exists l l', fst (predict_rules E sf shared (Some KClassification) rules st xs None) = Ok (Outcomes l) /\
    fst (predict_rules E true shared' (Some KClassification) rules (Some st') xs None) = Ok (Outcomes l') /\
    List.length l = n /\ List.length l' = n /\
    forall k, (k < n)%nat -> exists c d, nth k l Frame = Class c /\ nth k l' Frame = Class d /\
      (same_class c d \/ c = LNum NaN /\ d = LNum NaN).
Proof. exact votes_agree. Qed.
Print Assumptions C47_agree.

Example C47_agree_ex : exists l l',
  fst (predict_rules free false false (Some KClassification) jury None None None) = Ok (Outcomes l) /\
  fst (predict_rules free true false (Some KClassification) jury (Some (stacked_of jury_columns)) None None) = Ok (Outcomes l') /\
  l = l'.
Proof.
  destruct (C47_agree free false false false jury None (stacked_of jury_columns) None jury_ballots 4 0 3 (or_introl eq_refl) jury_stacks
    (or_introl jury_texts) jury_one jury_rows jury_comparable) as (l & l' & L & L' & _); try lia; try (eexists; apply jury_wins).
  exists l, l'. split; [exact L|]. split; [exact L'|]. vm_compute in L. vm_compute in L'. injection L as <-. injection L' as <-. reflexivity.
Qed.

(** ** C48 *)

Theorem C48_heaviest_class : forall E sf shared rules st xs ws bs n,
  unstacked sf st -> NoDup (map fst ws) -> all_present xs rules -> collected (casts E ws class_object xs) rules bs -> rows n bs ->
  fair bs -> somebody n bs ->
  exists l, fst (predict_rules E sf shared (Some KClassification) rules st xs (Some (WSeries ws))) = Ok (Outcomes l) /\
    each_row n Frame l (fun i x => exists c, x = Class c /\ is_verdict i bs c).
Proof. exact weighted_classes. Qed.
Print Assumptions C48_heaviest_class.

Example C48_heaviest_class_ex :
  fst (predict_rules free false false (Some KClassification) jury None None (Some (WSeries jury_weights))) =
    Ok (Outcomes [Class (LText "red"); Class (LText "blue"); Class (LNum NaN); Class (LText "red")]) /\
  exists l, fst (predict_rules free false false (Some KClassification) jury None None (Some (WSeries jury_weights))) = Ok (Outcomes l) /\
    each_row 4 Frame l (fun i x => exists c, x = Class c /\ is_verdict i heavy_ballots c).
Proof.
  split; [vm_compute; reflexivity|].
  exact (C48_heaviest_class free false false jury None None jury_weights heavy_ballots 4 (or_introl eq_refl) ltac:(distinct) jury_present jury_weighted
    heavy_rows heavy_fair heavy_somebody).
Qed.

(** ** C49 *)

Theorem C49_unchanged : forall E sf shared k rules st xs w,
  shared = false \/ xs <> None \/ w <> None \/ k <> Some KRegression \/ (sf = true /\ st <> None) ->
  snd (predict_rules E sf shared k rules st xs w) = rules.
Proof. exact predict_keeps. Qed.
Print Assumptions C49_unchanged.

Example C49_unchanged_ex : snd (predict_rules free false false (Some KRegression) three None None None) = three.
Proof. apply C49_unchanged. left. reflexivity. Qed.

(** ** C99 *)

Theorem C99_zero_first_refuted : exists E rules bs n l,
  collected (casts_one regression_number None) rules bs /\ rows n bs /\ List.length (rules) = 2%nat /\
  fst (predict_rules E false false (Some KRegression) rules None None None) = Err EType /\
  each_row n NaN l (fun i => is_mean i bs).
Proof. exact zero_first_refuted. Qed.
Print Assumptions C99_zero_first_refuted.

Theorem C99_raises : forall E sf shared rules st xs b b2 t n,
  unstacked sf st -> collected (casts_one regression_number xs) rules (b :: b2 :: t) -> rows n (b :: b2 :: t) -> (b_value b == 0)%Q ->
  (exists i, (i < n)%nat /\ active i b) ->
  fst (predict_rules E sf shared (Some KRegression) rules st xs None) = Err EType.
Proof. exact equal_zero_first. Qed.
Print Assumptions C99_raises.

Example C99_raises_ex : fst (predict_rules free false false (Some KRegression) zero_first None None None) = Err EType.
Proof.
  apply (C99_raises free false false zero_first None None (mkBallot 1 0%Q [1; 1]) (mkBallot 1 4%Q [1; 0]) [] 2); auto.
  - left. reflexivity.
  - apply collected_some; [apply voter_one; [eexists; reflexivity|bit_by_bit|discriminate]|].
    apply collected_some; [apply voter_one; [eexists; reflexivity|bit_by_bit|discriminate]|]. apply collected_nil.
  - intros b [<-|[<-|[]]]; reflexivity.
  - reflexivity.
  - exists 0%nat. split; [lia|reflexivity].
Qed.

Theorem C99_weighted_raises : forall E sf shared rules st xs ws b b2 t n,
  unstacked sf st -> NoDup (map fst ws) ->
  collected (casts E ws regression_number xs) rules (b :: b2 :: t) -> rows n (b :: b2 :: t) -> (b_value b == 0)%Q ->
  (exists i, (i < n)%nat /\ active i b) ->
  fst (predict_rules E sf shared (Some KRegression) rules st xs (Some (WSeries ws))) = Err EType.
Proof. exact weighted_first_zero. Qed.
Print Assumptions C99_weighted_raises.

Example C99_weighted_raises_ex :
  fst (predict_rules free false false (Some KRegression) zero_first None None (Some (WSeries [(name "a", Fin 1); (name "b", Fin 2)]))) = Err EType.
Proof.
  apply (C99_weighted_raises free false false zero_first None None _ (mkBallot 1 0%Q [1; 1]) (mkBallot 2 4%Q [1; 0]) [] 2); auto.
  - left. reflexivity.
  - distinct.
  - apply collected_some; [apply voter_casts; [eexists; reflexivity|bit_by_bit|discriminate|cbn; tauto|discriminate]|].
    apply collected_some; [apply voter_casts; [eexists; reflexivity|bit_by_bit|discriminate|cbn; tauto|discriminate]|]. apply collected_nil.
  - intros b [<-|[<-|[]]]; reflexivity.
  - reflexivity.
  - exists 0%nat. split; [lia|reflexivity].
Qed.

(** ** C100 *)

Theorem C100_cancel_refuted : exists E rules bs n x y,
  collected (casts_one regression_number None) rules bs /\ rows n bs /\
  fst (predict_rules E false false (Some KRegression) rules None None None) = Ok (Numbers [NaN; x]) /\ same_num x (Fin 3) /\
  is_mean 0 bs y /\ same_num y (Fin 0).
Proof. exact cancel_refuted. Qed.
Print Assumptions C100_cancel_refuted.

Theorem C100_nan : forall E sf shared rules st xs b b2 t n,
  unstacked sf st -> collected (casts_one regression_number xs) rules (b :: b2 :: t) -> rows n (b :: b2 :: t) -> ~ (b_value b == 0)%Q ->
  exists l, fst (predict_rules E sf shared (Some KRegression) rules st xs None) = Ok (Numbers l) /\
    each_row n NaN l (fun i x => (total i (b :: b2 :: t) == 0)%Q -> x = NaN).
Proof. exact equal_sum_zero. Qed.
Print Assumptions C100_nan.

Example C100_nan_ex : exists l, fst (predict_rules free false false (Some KRegression) opposite None None None) = Ok (Numbers l) /\ nth 0 l (Fin 1) = NaN.
Proof.
  destruct (C100_nan free false false opposite None None (mkBallot 1 3%Q [1; 1]) (mkBallot 1 (-3)%Q [1; 0]) [] 2) as (l & L & _).
  - left. reflexivity.
  - apply collected_some; [apply voter_one; [eexists; reflexivity|bit_by_bit|discriminate]|].
    apply collected_some; [apply voter_one; [eexists; reflexivity|bit_by_bit|discriminate]|]. apply collected_nil.
  - intros b [<-|[<-|[]]]; reflexivity.
  - discriminate.
  - exists l. split; [exact L|]. vm_compute in L. injection L as <-. reflexivity.
Qed.

Theorem C100_weighted_nan : forall E sf shared rules st xs ws b b2 t n,
  unstacked sf st -> NoDup (map fst ws) ->
  collected (casts E ws regression_number xs) rules (b :: b2 :: t) -> rows n (b :: b2 :: t) -> ~ (b_value b == 0)%Q ->
  exists l, fst (predict_rules E sf shared (Some KRegression) rules st xs (Some (WSeries ws))) = Ok (Numbers l) /\
    each_row n NaN l (fun i x => (total i (b :: b2 :: t) == 0)%Q -> x = NaN).
Proof. exact weighted_sum_zero. Qed.
Print Assumptions C100_weighted_nan.

Example C100_weighted_nan_ex : exists l,
  fst (predict_rules free false false (Some KRegression) opposite None None (Some (WSeries [(name "a", Fin 2); (name "b", Fin 2)]))) = Ok (Numbers l) /\
  nth 0 l (Fin 1) = NaN.
Proof.
  destruct (C100_weighted_nan free false false opposite None None [(name "a", Fin 2); (name "b", Fin 2)] (mkBallot 2 3%Q [1; 1]) (mkBallot 2 (-3)%Q [1; 0]) [] 2) as (l & L & _).
  - left. reflexivity.
  - distinct.
  - apply collected_some; [apply voter_casts; [eexists; reflexivity|bit_by_bit|discriminate|cbn; tauto|discriminate]|].
    apply collected_some; [apply voter_casts; [eexists; reflexivity|bit_by_bit|discriminate|cbn; tauto|discriminate]|]. apply collected_nil.
  - intros b [<-|[<-|[]]]; reflexivity.
  - discriminate.
  - exists l. split; [exact L|]. vm_compute in L. injection L as <-. reflexivity.
Qed.

(** ** C101 *)

Theorem C101_crowd_refuted : exists E rules bs n x,
  collected (casts_one regression_number None) rules bs /\ rows n bs /\
  fst (predict_rules E false false (Some KRegression) rules None None None) = Ok (Numbers [PInf]) /\
  is_mean 0 bs x /\ same_num x (Fin 1).
Proof. exact crowd_refuted. Qed.
Print Assumptions C101_crowd_refuted.

Theorem C101_infinite : forall E sf shared rules st xs bs n i,
  unstacked sf st -> collected (casts_one regression_number xs) rules bs -> rows n bs ->
  (exists b t, bs = b :: t /\ ~ (b_value b == 0)%Q) -> (i < n)%nat -> List.length (at_row i bs) = 256%nat -> (0 < total i bs)%Q ->
  exists l, fst (predict_rules E sf shared (Some KRegression) rules st xs None) = Ok (Numbers l) /\ nth i l NaN = PInf.
Proof. exact equal_wraps. Qed.
Print Assumptions C101_infinite.

Example C101_infinite_ex : exists l,
  fst (predict_rules free false false (Some KRegression) crowd None None None) = Ok (Numbers l) /\ nth 0 l NaN = PInf.
Proof.
  apply (C101_infinite free false false crowd None None crowd_ballots 1 0); auto using crowd_one.
  - left. reflexivity.
  - intros b B. apply repeat_spec in B. subst. reflexivity.
  - eexists. eexists. split; [reflexivity|]. discriminate.
  - vm_compute. reflexivity.
Qed.

(** ** C102 *)

Theorem C102_late_row_refuted : exists E rules bs st,
  stacks E None rules 2 st /\ collected (casts_one class_object None) rules bs /\ wins 1 bs (LText "red") /\
  fst (predict_rules E true false (Some KClassification) rules (Some st) None None) = Ok (Outcomes [Class (LText "red"); Class (LNum NaN)]) /\
  fst (predict_rules E false false (Some KClassification) rules None None None) = Ok (Outcomes [Class (LNum NaN); Class (LText "red")]).
Proof. exact late_refuted. Qed.
Print Assumptions C102_late_row_refuted.

Theorem C102_undecided_refuted : exists E rules st,
  stacks E None rules 2 st /\ predicts_texts rules /\
  fst (predict_rules E true false (Some KClassification) rules (Some st) None None) = Ok (Outcomes [Frame; Class (LNum NaN)]) /\
  fst (predict_rules E false false (Some KClassification) rules None None None) = Ok (Outcomes [Class (LNum NaN); Class (LNum NaN)]).
Proof. exact undecided_refuted. Qed.
Print Assumptions C102_undecided_refuted.

Theorem C102_stacked_rows : forall E shared rules st xs bs n,
  stacks E xs rules n st -> rules <> [] -> predicts_texts rules \/ predicts_numbers rules ->
  collected (casts_one class_object xs) rules bs -> (forall b, In b bs -> comparable (b_value b)) ->
  exists l, fst (predict_rules E true shared (Some KClassification) rules (Some st) xs None) = Ok (Outcomes l) /\
    put_rows n (fun i => wins i bs) l.
Proof. exact equal_votes_stacked. Qed.
Print Assumptions C102_stacked_rows.

Example C102_stacked_rows_ex :
  fst (predict_rules free true false (Some KClassification) jury (Some (stacked_of jury_columns)) None None) =
    Ok (Outcomes [Class (LText "red"); Class (LNum NaN); Class (LNum NaN); Class (LText "red")]) /\
  exists l, fst (predict_rules free true false (Some KClassification) jury (Some (stacked_of jury_columns)) None None) = Ok (Outcomes l) /\
    put_rows 4 (fun i => wins i jury_ballots) l.
Proof.
  split; [vm_compute; reflexivity|].
  exact (C102_stacked_rows free false jury _ None jury_ballots 4 jury_stacks ltac:(discriminate) (or_introl jury_texts) jury_one jury_comparable).
Qed.

(** ** C103 *)

Theorem C103_heaviest_rule_refuted : exists E rules ws bs st a b,
  stacks E None rules 4 st /\ collected (casts E ws class_object None) rules bs /\ fair bs /\ wins 0 bs (LText "red") /\
  fst (predict_rules E true false (Some KClassification) rules (Some st) None (Some (WSeries ws))) = Ok (Outcomes (Class (LText "blue") :: a)) /\
  fst (predict_rules E false false (Some KClassification) rules None None (Some (WSeries ws))) = Ok (Outcomes (Class (LText "red") :: b)).
Proof. exact heaviest_refuted. Qed.
Print Assumptions C103_heaviest_rule_refuted.

Theorem C103_heaviest_rules : forall E shared rules st xs ws bs n,
  stacks E xs rules n st -> predicts_texts rules \/ predicts_numbers rules -> NoDup (map fst ws) ->
  collected (casts E ws class_object xs) rules bs -> (forall b, In b bs -> comparable (b_value b)) -> somebody n bs ->
  exists l, fst (predict_rules E true shared (Some KClassification) rules (Some st) xs (Some (WSeries ws))) = Ok (Outcomes l) /\
    put_rows n (fun i => wins i (unit_weights (heaviest i bs))) l.
Proof. exact weighted_votes_stacked. Qed.
Print Assumptions C103_heaviest_rules.

Example C103_heaviest_rules_ex :
  fst (predict_rules free true false (Some KClassification) jury (Some (stacked_of jury_columns)) None (Some (WSeries jury_weights))) =
    Ok (Outcomes [Class (LText "blue"); Class (LText "blue"); Class (LNum NaN); Class (LText "red")]) /\
  exists l, fst (predict_rules free true false (Some KClassification) jury (Some (stacked_of jury_columns)) None (Some (WSeries jury_weights))) = Ok (Outcomes l) /\
    put_rows 4 (fun i => wins i (unit_weights (heaviest i heavy_ballots))) l.
Proof.
  split; [vm_compute; reflexivity|].
  apply (C103_heaviest_rules free false jury _ None jury_weights heavy_ballots 4 jury_stacks (or_introl jury_texts)).
  - distinct.
  - apply jury_weighted.
  - intros b B. apply heavy_fair. auto.
  - apply heavy_somebody.
Qed.

(** ** C104 *)

Theorem C104_overwritten_refuted : exists E rules rules' l r r',
  predict_rules E false true (Some KRegression) rules None None None = (Ok (Numbers l), rules') /\
  nth_error rules 0 = Some r /\ nth_error rules' 0 = Some r' /\
  working r None [1; 1; 0] /\ working r' None [2; 1; 1] /\ bits [1; 1; 0].
Proof. exact overwritten_refuted. Qed.
Print Assumptions C104_overwritten_refuted.

(** ** C105 *)

Theorem C105_missing_refuted : exists E rules bs n,
  collected (casts_one class_object None) rules bs /\ rows n bs /\ somebody n bs /\ (forall b, In b bs -> comparable (b_value b)) /\
  fst (predict_rules E false false (Some KClassification) rules None None None) = Err EAttr.
Proof. exact missing_refuted. Qed.
Print Assumptions C105_missing_refuted.

Theorem C105_raises : forall E sf shared rules st ws r t s w,
  unstacked sf st -> NoDup (map fst ws) -> rules = r :: t -> called E r s -> In (s, Fin w) ws -> ~ (w == 0)%Q -> r_act r = None ->
  fst (predict_rules E sf shared (Some KClassification) rules st None (Some (WSeries ws))) = Err EAttr.
Proof. exact vote_missing. Qed.
Print Assumptions C105_raises.

Example C105_raises_ex :
  fst (predict_rules free false false (Some KClassification) [silent; class_voter "a" "red" [1; 1]] None None (Some (WSeries [(name "b", Fin 1)]))) = Err EAttr.
Proof.
  apply (C105_raises free false false _ None _ silent [class_voter "a" "red" [1; 1]] (name "b") 1%Q); auto.
  - left. reflexivity.
  - distinct.
  - exists (raw_cond [side "b" 0 2 5]), [side "b" 0 2 5]. split; [reflexivity|]. split; [repeat split|]. split; [discriminate|reflexivity].
  - left. reflexivity.
  - discriminate.
Qed.

(** ** C106 *)

Theorem C106_names_refuted : exists E r r' s c c' fs gs,
  called E r s /\ called E r' s /\ r_cond r = Some c /\ r_cond r' = Some c' /\ condition c fs /\ condition c' gs /\
  List.length fs = 1%nat /\ List.length gs = 2%nat.
Proof. exact names_refuted. Qed.
Print Assumptions C106_names_refuted.

Theorem C106_names_tell_partial : forall E r r' s c c' fs gs,
  called E r s -> called E r' s -> r_cond r = Some c -> r_cond r' = Some c' -> lists c fs -> lists c' gs ->
  (forall f, In f (fs ++ gs) -> without " " (f_name f)) ->
  (forall x, without "," (e_repr E x) /\ without "]" (e_repr E x)) -> (forall x y, e_repr E x = e_repr E y -> same_num x y) ->
  Forall2 same_bounds fs gs.
Proof. exact names_tell. Qed.
Print Assumptions C106_names_tell_partial.

Example C106_names_tell_partial_ex : exists s, called plain_world pair_rule s /\
  (forall x, without "," (e_repr plain_world x) /\ without "]" (e_repr plain_world x)) /\
  (forall x y, e_repr plain_world x = e_repr plain_world y -> same_num x y) /\
  forall f, In f [side "a" 0 2 5; side "b" 1 2 5] -> without " " (f_name f).
Proof.
  eexists. split; [exists (raw_cond [side "a" 0 2 5; side "b" 1 2 5]), [side "a" 0 2 5; side "b" 1 2 5]; split; [reflexivity|];
    split; [repeat split|]; split; [discriminate|reflexivity]|].
  split; [exact plain_without|]. split; [exact plain_inj|].
  intros f [<-|[<-|[]]]; apply lacks_without; cbn; (split; [discriminate|auto]).
Qed.

(** ** C107 *)

Theorem C107_attribute : forall E sf shared k rules st xs a ws,
  attribute_values E rules a ws ->
  predict_rules E sf shared k rules st xs (Some (WName a)) = predict_rules E sf shared k rules st xs (Some (WSeries ws)).
Proof. exact attribute_weights. Qed.
Print Assumptions C107_attribute.

Example C107_attribute_ex : exists l,
  fst (predict_rules free false false (Some KRegression) three None None (Some (WName "coverage"))) = Ok (Numbers l) /\
  Forall2 same_num l [Fin 3; Fin 2; NaN; Fin (7 # 3)] /\
  predict_rules free false false (Some KRegression) three None None (Some (WName "coverage")) =
  predict_rules free false false (Some KRegression) three None None
    (Some (WSeries [(name "a", Fin (2 # 4)); (name "b", Fin (2 # 4)); (name "c", Fin (1 # 4))])).
Proof.
  eexists. split; [vm_compute; reflexivity|]. split; [repeat constructor; reflexivity|]. apply C107_attribute. apply coverage_values.
Qed.

(** ** C108 *)

Theorem C108_nothing : forall E sf shared k rules st xs w,
  rules = [] \/ k = None ->
  predict_rules E sf shared k rules st xs w = (Ok Empty, rules).
Proof. exact predict_nothing. Qed.
Print Assumptions C108_nothing.

Example C108_nothing_ex :
  predict_rules free false false (Some KRegression) [] None None None = (Ok Empty, []) /\
  predict_rules free false false None three None None None = (Ok Empty, three).
Proof. split; apply C108_nothing; auto. Qed.

Theorem C108_untyped : forall E sf shared rules st xs ws,
  unstacked sf st -> rules <> [] ->
  (forall ws', ws = Some ws' -> exists s, ws' = WSeries s) ->
  fst (predict_rules E sf shared (Some KRule) rules st xs ws) = Err EType.
Proof. exact predict_untyped. Qed.
Print Assumptions C108_untyped.

Example C108_untyped_ex : fst (predict_rules free false false (Some KRule) three None None None) = Err EType.
Proof. apply C108_untyped; [left; reflexivity|discriminate|discriminate]. Qed.

Theorem C108_no_ballot : forall E sf shared rules st xs,
  unstacked sf st -> rules <> [] -> collected (casts_one regression_number xs) rules [] ->
  fst (predict_rules E sf shared (Some KRegression) rules st xs None) = Err EValue.
Proof. exact equal_without. Qed.
Print Assumptions C108_no_ballot.

Example C108_no_ballot_ex : fst (predict_rules free false false (Some KRegression) [sided KRegression "a"] None None None) = Err EValue.
Proof.
  apply C108_no_ballot; [left; reflexivity|discriminate|]. apply collected_none; [|apply collected_nil]. apply one_absent. left. split; reflexivity.
Qed.

Theorem C108_no_weighted_ballot : forall E sf shared rules st xs ws,
  unstacked sf st -> NoDup (map fst ws) -> rules <> [] -> collected (casts E ws regression_number xs) rules [] ->
  fst (predict_rules E sf shared (Some KRegression) rules st xs (Some (WSeries ws))) = Err EValue.
Proof. exact weighted_nobody. Qed.
Print Assumptions C108_no_weighted_ballot.

Example C108_no_weighted_ballot_ex :
  fst (predict_rules free false false (Some KRegression) [number_voter "a" 2 [1; 0]] None None (Some (WSeries [(name "a", Fin 0)]))) = Err EValue.
Proof.
  apply C108_no_weighted_ballot; [left; reflexivity|distinct|discriminate|]. apply collected_none; [|apply collected_nil].
  apply casts_ignored with (name "a"); [apply voter_called|]. intros w [H|[]]. injection H as <-. right. reflexivity.
Qed.

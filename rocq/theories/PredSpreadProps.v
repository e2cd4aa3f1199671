(** Theorems on predictions where an activation has one point. *)
From Coq Require Import List ZArith QArith Bool String Ascii Lia Lqa.
From Coq Require Import List.
From Verif Require Import Base Num Arith CondModel CondSpec CondBase CondProofs CondWit ThrModel ThrSpec ThrProofs ThrWit
  MetModel MetSpec MetWit RuleModel RuleSpec RuleProofs RuleMisc RuleWit PredModel PredSpec PredReg PredMisc PredName PredWit PredSpread
  PredSpreadWit.
Import ListNotations.
Open Scope string_scope.
Open Scope list_scope.
Open Scope Z_scope.

(** ** C192 *)

Theorem C192_mean : forall E sf shared rules st xs bs n,
  unstacked sf st -> collected (casts_one regression_number xs) rules bs -> rows_or_one n bs -> starts_well bs ->
  exists l, fst (predict_rules E sf shared (Some KRegression) rules st xs None) = Ok (Numbers l) /\
    each_row n NaN l (fun i x =>
      (List.length (at_row i (map (spread n) bs)) < 256)%nat -> sum_counts i (map (spread n) bs) -> is_mean i (map (spread n) bs) x).
Proof. exact spread_mean. Qed.
Print Assumptions C192_mean.

Example C192_mean_ex : exists l,
  fst (predict_rules free false true (Some KRegression) short None None None) = Ok (Numbers l) /\
  Forall2 same_num l [Fin 3; Fin 4; Fin (5 # 3)].
Proof.
  destruct (C192_mean free false true short None None short_ballots 3 (or_introl eq_refl) short_one short_rows short_start) as (l & L & _).
  exists l. split; [exact L|]. vm_compute in L. injection L as <-. repeat constructor; reflexivity.
Qed.

Theorem C192_weighted_mean : forall E sf shared rules st xs ws bs n,
  unstacked sf st -> NoDup (map fst ws) -> collected (casts E ws regression_number xs) rules bs -> rows_or_one n bs -> starts_well bs ->
  exists l, fst (predict_rules E sf shared (Some KRegression) rules st xs (Some (WSeries ws))) = Ok (Numbers l) /\
    each_row n NaN l (fun i x =>
      weighs i (map (spread n) bs) -> sum_counts i (map (spread n) bs) -> is_mean i (map (spread n) bs) x).
Proof. exact spread_weighted_mean. Qed.
Print Assumptions C192_weighted_mean.

Example C192_weighted_mean_ex : exists l,
  fst (predict_rules free true false (Some KRegression) short None None (Some (WSeries short_weights))) = Ok (Numbers l) /\
  Forall2 same_num l [Fin (7 # 2); Fin 4; Fin 2].
Proof.
  destruct (C192_weighted_mean free true false short None None short_weights short_weighted 3 (or_intror eq_refl)) as (l & L & _).
  - distinct.
  - apply short_casts.
  - split; auto. intros c [<-|[<-|[]]]; auto.
  - right. eexists. eexists. split; [reflexivity|]. discriminate.
  - exists l. split; [exact L|]. vm_compute in L. injection L as <-. repeat constructor; reflexivity.
Qed.

Theorem C192_refused : forall E sf shared rules st xs a u b v,
  unstacked sf st -> collected (casts_one regression_number xs) rules (a :: u ++ b :: v) -> ~ (b_value a == 0)%Q ->
  rows_or_one (List.length (b_active a)) (a :: u) ->
  List.length (b_active b) <> List.length (b_active a) -> List.length (b_active b) <> 1%nat ->
  fst (predict_rules E sf shared (Some KRegression) rules st xs None) = Err EValue.
Proof. exact differ_mean. Qed.
Print Assumptions C192_refused.

Example C192_refused_ex : fst (predict_rules free false true (Some KRegression) uneven None None None) = Err EValue.
Proof.
  apply (C192_refused free false true uneven None None (mkBallot 1 2%Q [1; 0; 1]) [mkBallot 1 4%Q [1]] (mkBallot 1 (-1)%Q [0; 1]) []);
    [left; reflexivity|exact uneven_one|discriminate| |discriminate|discriminate].
  split; auto. intros c [<-|[]]. auto.
Qed.

Theorem C192_weighted_refused : forall E sf shared rules st xs ws a u b v,
  unstacked sf st -> NoDup (map fst ws) -> collected (casts E ws regression_number xs) rules (a :: u ++ b :: v) -> ~ (b_value a == 0)%Q ->
  rows_or_one (List.length (b_active a)) (a :: u) ->
  List.length (b_active b) <> List.length (b_active a) -> List.length (b_active b) <> 1%nat ->
  fst (predict_rules E sf shared (Some KRegression) rules st xs (Some (WSeries ws))) = Err EValue.
Proof. exact differ_weighted_mean. Qed.
Print Assumptions C192_weighted_refused.

Example C192_weighted_refused_ex :
  fst (predict_rules free false true (Some KRegression) uneven None None (Some (WSeries short_weights))) = Err EValue.
Proof.
  apply (C192_weighted_refused free false true uneven None None short_weights (mkBallot 1 2%Q [1; 0; 1]) [mkBallot 3 4%Q [1]] (mkBallot 2 (-1)%Q [0; 1]) []);
    [left; reflexivity|distinct|exact uneven_casts|discriminate| |discriminate|discriminate].
  split; auto. intros c [<-|[]]. auto.
Qed.

Theorem C192_vote : forall E sf shared rules st xs bs n,
  unstacked sf st -> (forall r, In r rules -> exists s, called E r s) -> all_present xs rules ->
  collected (casts_one class_object xs) rules bs -> joins n bs -> (forall b, In b bs -> comparable (b_value b)) ->
  somebody n (map (spread n) bs) ->
  exists l, fst (predict_rules E sf shared (Some KClassification) rules st xs None) = Ok (Outcomes l) /\
    each_row n Frame l (fun i x => exists c, x = Class c /\ is_verdict i (map (spread n) bs) c).
Proof. exact spread_vote. Qed.
Print Assumptions C192_vote.

Example C192_vote_ex : exists l,
  fst (predict_rules free false true (Some KClassification) panel None None None) = Ok (Outcomes l) /\
  l = [Class (LText "red"); Class (LNum NaN); Class (LText "red")].
Proof.
  destruct (C192_vote free false true panel None None panel_ballots 3 (or_introl eq_refl) panel_called panel_present panel_one panel_joins) as (l & L & _).
  - intros b [<-|[<-|[<-|[]]]]; discriminate.
  - exists (mkBallot 1 (LText "red") [1; 0; 1]), O. split; [left; reflexivity|]. split; [lia|reflexivity].
  - exists l. split; [exact L|]. vm_compute in L. injection L as <-. reflexivity.
Qed.

Theorem C192_weighted_vote : forall E sf shared rules st xs ws bs n,
  unstacked sf st -> NoDup (map fst ws) -> all_present xs rules -> collected (casts E ws class_object xs) rules bs -> joins n bs ->
  fair bs -> somebody n (map (spread n) bs) ->
  exists l, fst (predict_rules E sf shared (Some KClassification) rules st xs (Some (WSeries ws))) = Ok (Outcomes l) /\
    each_row n Frame l (fun i x => exists c, x = Class c /\ is_verdict i (map (spread n) bs) c).
Proof. exact spread_weighted_vote. Qed.
Print Assumptions C192_weighted_vote.

Example C192_weighted_vote_ex : exists l,
  fst (predict_rules free false true (Some KClassification) panel None None (Some (WSeries short_weights))) = Ok (Outcomes l) /\
  l = [Class (LText "red"); Class (LText "blue"); Class (LNum NaN)].
Proof.
  destruct (C192_weighted_vote free false true panel None None short_weights panel_weighted 3 (or_introl eq_refl)) as (l & L & _).
  - distinct.
  - exact panel_present.
  - exact panel_casts.
  - exact panel_weighted_joins.
  - intros b [<-|[<-|[<-|[]]]]; split; (reflexivity || discriminate).
  - exists (mkBallot 1 (LText "red") [1; 0; 1]), O. split; [left; reflexivity|]. split; [lia|reflexivity].
  - exists l. split; [exact L|]. vm_compute in L. injection L as <-. reflexivity.
Qed.

Theorem C192_new_class : forall E sf shared rules st xs u b v n,
  unstacked sf st -> (forall r, In r rules -> exists s, called E r s) -> all_present xs rules ->
  collected (casts_one class_object xs) rules (u ++ b :: v) -> (forall c, In c (u ++ b :: v) -> comparable (b_value c)) ->
  (0 < n)%nat -> joins n u -> (exists d i, In d u /\ active i d) ->
  List.length (b_active b) <> n -> (exists i, active i b) -> (forall d, In d u -> ~ same_class (b_value b) (b_value d)) ->
  fst (predict_rules E sf shared (Some KClassification) rules st xs None) = Err EValue.
Proof. exact new_class_vote. Qed.
Print Assumptions C192_new_class.

Example C192_new_class_ex : fst (predict_rules free false true (Some KClassification) newcomer None None None) = Err EValue.
Proof.
  apply (C192_new_class free false true newcomer None None _ _ _ 3 (or_introl eq_refl) newcomer_called newcomer_present newcomer_one).
  - intros c [<-|[<-|[]]]; discriminate.
  - lia.
  - apply alone_joins.
  - eexists. exists O. split; [left; reflexivity|reflexivity].
  - discriminate.
  - exists O. reflexivity.
  - intros d [<-|[]]. exact red_blue.
Qed.

Theorem C192_weighted_new_class : forall E sf shared rules st xs ws u b v n,
  unstacked sf st -> NoDup (map fst ws) -> all_present xs rules ->
  collected (casts E ws class_object xs) rules (u ++ b :: v) -> (forall c, In c (u ++ b :: v) -> comparable (b_value c)) ->
  (0 < n)%nat -> joins n u -> (exists d i, In d u /\ active i d) ->
  List.length (b_active b) <> n -> (exists i, active i b) -> (forall d, In d u -> ~ same_class (b_value b) (b_value d)) ->
  fst (predict_rules E sf shared (Some KClassification) rules st xs (Some (WSeries ws))) = Err EValue.
Proof. exact new_class_weighted_vote. Qed.
Print Assumptions C192_weighted_new_class.

Example C192_weighted_new_class_ex :
  fst (predict_rules free false true (Some KClassification) newcomer None None (Some (WSeries short_weights))) = Err EValue.
Proof.
  apply (C192_weighted_new_class free false true newcomer None None short_weights _ _ _ 3 (or_introl eq_refl) ltac:(distinct) newcomer_present newcomer_casts).
  - intros c [<-|[<-|[]]]; discriminate.
  - lia.
  - apply alone_joins.
  - eexists. exists O. split; [left; reflexivity|reflexivity].
  - discriminate.
  - exists O. reflexivity.
  - intros d [<-|[]]. exact red_blue.
Qed.

(** ** C193 *)

Theorem C193_lengths_refuted : exists E rules bs b c l,
  collected (casts_one regression_number None) rules bs /\ In b bs /\ In c bs /\
  List.length (b_active b) <> List.length (b_active c) /\
  fst (predict_rules E false false (Some KRegression) rules None None None) = Ok (Numbers l).
Proof. exact mixed_lengths. Qed.
Print Assumptions C193_lengths_refuted.

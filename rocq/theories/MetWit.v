(** Witnesses of the refuted claims and values for the examples. *)
From Coq Require Import List ZArith QArith Qabs Bool String Ascii Lia Lqa.
From Coq Require Import List.
From Coq Require Import Sorting.Sorted Sorting.Permutation.
From Verif Require Import Base Num Arith CondModel CondSpec CondBase MetModel MetSpec MetReg MetErr MetClass MetRate.
Import ListNotations.
Open Scope Z_scope.
Open Scope string_scope.

Ltac pick := repeat (first [apply picks_nil | apply picks_on; [discriminate|] | apply picks_off]).
Ltac vals := repeat (first [apply values_nil | apply values_nan | apply values_fin]).

(** A rule activated at four points out of five, one of them without target. *)
Definition ex_act : list Z := [1; 0; 1; 1; 1].
Definition ex_y : list num := [Fin 2; Fin 100; NaN; Fin 3; Fin 7].

Lemma ex_picks : picks ex_act ex_y [Fin 2; NaN; Fin 3; Fin 7].
Proof. pick. Qed.

Lemma ex_values : values [Fin 2; NaN; Fin 3; Fin 7] [2%Q; 3%Q; 7%Q].
Proof. vals. Qed.

Lemma ex_bits : bits ex_act.
Proof. unfold ex_act. repeat (constructor; [lia|]). constructor. Qed.

Lemma ex_average : average [2%Q; 3%Q; 7%Q] 4%Q.
Proof. split; [discriminate|]. reflexivity. Qed.

(** The exact square root on a few numbers. *)
Definition ex_sqrt (x : num) : num :=
  match x with
  | Fin q => if Qeq_bool q (7 # 1) then Fin (2645 # 1000)
             else if Qeq_bool q 4 then Fin 2
             else if Qeq_bool q (1 # 4) then Fin (1 # 2)
             else if Qeq_bool q 0 then Fin 0 else NaN
  | _ => NaN
  end.

Lemma ex_sqrt_ok a b : (a == b)%Q -> ex_sqrt (Fin a) = ex_sqrt (Fin b).
Proof.
  intros E. unfold ex_sqrt. 
  assert (X : forall c, Qeq_bool a c = Qeq_bool b c).
  { intros c. destruct (Qeq_bool b c) eqn:B.
    - apply Qeq_bool_iff in B. apply Qeq_bool_iff. rewrite E. auto.
    - apply Qeq_bool_false. intros H. rewrite E in H. apply Qeq_bool_iff in H. congruence. }
  rewrite !X. auto.
Qed.

Lemma std_one_point_refuted :
  exists act y k sqrt l, is_target (YVector y) y /\ bits act /\ picks act y l /\ l = [Fin 5] /\
    sqrt NaN = NaN /\
    conditional_std sqrt (ActArray act) (YVector y) = Ok (MNum (Fin 0)) /\
    conditional_std sqrt (ActFrame [(k, act)]) (YVector y) = Ok (MSeries [(k, NaN)]).
Proof.
  exists [0; 1]%Z, [Fin 1; Fin 5], "r", ex_sqrt, [Fin 5]. split; [left; auto|].
  split; [repeat (constructor; [lia|]); constructor|]. split; [pick|]. repeat split; vm_compute; reflexivity.
Qed.

(** ** Classes *)

Definition text_rows : list label := [LText "b"; LText "a"; LText "c"; LText "b"; LText "a"].

Definition ex_repr (x : num) : string :=
  match x with
  | Fin q => if Qeq_bool q (1 # 4) then "0.25" else if Qeq_bool q (1 # 2) then "0.5"
             else if Qeq_bool q (3 # 4) then "0.75" else "1.0"
  | _ => "nan"
  end.

Lemma ex_repr_monotone : repr_monotone ex_repr 4.
Proof.
  intros p q (j & P & J) (k & Q & K).
  assert (X : forall p (j : nat), (p * inject_Z (Z.of_nat 4) == inject_Z (Z.of_nat j))%Q -> (0 < j <= 4)%nat ->
            ((p == 1 # 4)%Q \/ (p == 1 # 2)%Q \/ (p == 3 # 4)%Q \/ (p == 1)%Q)).
  { clear. intros p j P J. change (inject_Z (Z.of_nat 4)) with 4%Q in P.
    assert (C : j = 1%nat \/ j = 2%nat \/ j = 3%nat \/ j = 4%nat) by lia.
    destruct C as [->|[->|[->| -> ]]]; [left|right; left|right; right; left|right; right; right].
    - change (inject_Z (Z.of_nat 1)) with 1%Q in P. lra.
    - change (inject_Z (Z.of_nat 2)) with 2%Q in P. lra.
    - change (inject_Z (Z.of_nat 3)) with 3%Q in P. lra.
    - change (inject_Z (Z.of_nat 4)) with 4%Q in P. lra. }
  assert (Y : forall p, ((p == 1 # 4)%Q -> ex_repr (Fin p) = "0.25") /\ ((p == 1 # 2)%Q -> ex_repr (Fin p) = "0.5") /\
            ((p == 3 # 4)%Q -> ex_repr (Fin p) = "0.75") /\ ((p == 1)%Q -> ex_repr (Fin p) = "1.0")).
  { clear. intros p. unfold ex_repr. repeat split; intros E.
    - rewrite (proj2 (Qeq_bool_iff p (1 # 4)) E). auto.
    - rewrite (Qeq_bool_false p (1 # 4)) by lra. rewrite (proj2 (Qeq_bool_iff p (1 # 2)) E). auto.
    - rewrite (Qeq_bool_false p (1 # 4)), (Qeq_bool_false p (1 # 2)) by lra. rewrite (proj2 (Qeq_bool_iff p (3 # 4)) E). auto.
    - rewrite (Qeq_bool_false p (1 # 4)), (Qeq_bool_false p (1 # 2)), (Qeq_bool_false p (3 # 4)) by lra. auto. }
  destruct (Y p) as (P1 & P2 & P3 & P4), (Y q) as (Q1 & Q2 & Q3 & Q4).
  destruct (X p j P J) as [E|[E|[E|E]]], (X q k Q K) as [F|[F|[F|F]]];
    (split; intros L; [try (exfalso; lra)|try (exfalso; lra)]);
    first [rewrite (P1 E)|rewrite (P2 E)|rewrite (P3 E)|rewrite (P4 E)];
    first [rewrite (Q1 F)|rewrite (Q2 F)|rewrite (Q3 F)|rewrite (Q4 F)]; reflexivity.
Qed.

(** A class with a frequency of one in twenty thousand. *)
Definition rare_repr (x : num) : string :=
  match x with
  | Fin q => if Qeq_bool q (1 # 20000) then "5e-05" else "0.99995"
  | _ => "nan"
  end.

Definition rare_y : list label := repeat (LText "common") (Z.to_nat 19999) ++ [LText "rare"].

Lemma picks_all {A} (y : list A) : picks (map (fun _ => 1%Z) y) y y.
Proof. induction y; cbn; constructor; auto; discriminate. Qed.

Lemma tally_repeat {A} (P : A -> Prop) x n : (P x -> tally P (repeat x n) n) /\ (~ P x -> tally P (repeat x n) 0).
Proof. induction n as [|n (A1 & A2)]; split; intros; cbn [repeat]; constructor; auto. Qed.

Lemma rare_class_refuted :
  exists repr act y l, picks act y l /\ (forall c, In c l -> exists s, c = LText s) /\
    repr (Fin (1 # 20000)) = "5e-05" /\ repr (Fin (19999 # 20000)) = "0.99995" /\
    rbind (class_probabilities repr act y) most_probable = Ok (LText "rare") /\
    majority l (LText "common").
Proof.
  exists rare_repr, (map (fun _ => 1%Z) rare_y), rare_y, rare_y. split; [apply picks_all|].
  assert (IN : forall c, In c rare_y -> c = LText "common" \/ c = LText "rare").
  { intros c H. apply in_app_iff in H as [H|[H|[]]]; [left; apply repeat_spec in H; auto|right; auto]. }
  assert (ND : ~ same_class (LText "common") (LText "rare")) by (intros E; inversion E).
  assert (ND' : ~ same_class (LText "rare") (LText "common")) by (intros E; inversion E).
  assert (T1 : tally (same_class (LText "common")) rare_y (Z.to_nat 19999)).
  { apply (proj2 (tally_app _ _ (LText "rare") _ (proj1 (tally_repeat _ _ _) (same_text _)))). auto. }
  assert (T2 : tally (same_class (LText "rare")) rare_y 1).
  { apply (proj1 (tally_app _ _ (LText "rare") _ (proj2 (tally_repeat (same_class (LText "rare")) (LText "common") _) ND'))).
    constructor. }
  split; [intros c H; destruct (IN c H); subst; eauto|].
  split; [reflexivity|]. split; [reflexivity|]. split.
  - unfold class_probabilities. rewrite (extract_picks _ _ _ (picks_all rare_y)). vm_compute. reflexivity.
  - split.
    + exists (LText "common"). split; [|constructor]. apply in_app_iff. left.
      replace (Z.to_nat 19999) with (S (Z.to_nat 19998)) by lia. left. auto.
    + exists (Z.to_nat 19999). split; auto. intros d j Hd Td. destruct (IN d Hd) as [->| -> ].
      * right. split; [apply (tally_unique _ _ _ _ Td T1)|left; constructor].
      * left. rewrite (tally_unique _ _ _ _ Td T2). lia.
Qed.

Lemma no_point_refuted :
  exists repr act y, picks act y (@nil label) /\
    rbind (class_probabilities repr act y) most_probable = Err EIndex.
Proof.
  exists ex_repr, [0; 0]%Z, [LNum (Fin 1); LNum (Fin 2)]. split; [pick|]. reflexivity.
Qed.

Lemma no_point_stacked_refuted :
  exists cols y, In ("bad", [0; 0]%Z) cols /\ In ("good", [1; 1]%Z) cols /\
    stacked_class_predictions cols (YVector y) = Err EIndex /\
    stacked_class_predictions [("good", [1; 1]%Z)] (YVector y) = Ok [("good", LNum (Fin 1))].
Proof.
  exists [("good", [1; 1]%Z); ("bad", [0; 0]%Z)], [LNum (Fin 1); LNum (Fin 1)].
  cbn [In]. repeat split; auto.
Qed.

(** The most frequent class is the empty text, or the text "zero". *)
Lemma special_texts_refuted :
  exists y k act, let l := y in picks act y l /\ classes l /\
    rbind (class_probabilities ex_repr act y) most_probable = Ok (LText "") /\
    majority l (LText "") /\
    stacked_class_predictions [(k, act)] (YVector y) = Ok [(k, LText "a")].
Proof.
  exists [LText ""; LText "a"; LText ""], "r", [1; 1; 1]%Z. cbv zeta. split; [pick|].
  assert (C : forall c, In c [LText ""; LText "a"; LText ""] -> exists s, c = LText s)
    by (intros c H; cbn in H; repeat destruct H as [<-|H]; eauto; contradiction).
  split; [right; auto|]. split; [vm_compute; reflexivity|]. split; [|vm_compute; reflexivity].
  split; [exists (LText ""); split; [left; auto|constructor]|]. exists 2%nat.
  split; [apply (tally_same_class [LText ""; LText "a"; LText ""] (LText ""))|].
  intros d j Hd Td. cbn in Hd. repeat destruct Hd as [<-|Hd]; try contradiction.
  - right. split; [|left; constructor].
    apply (tally_unique _ _ _ _ Td (tally_same_class [LText ""; LText "a"; LText ""] (LText ""))).
  - left. rewrite (tally_unique _ _ _ _ Td (tally_same_class [LText ""; LText "a"; LText ""] (LText "a"))). cbn. lia.
  - right. split; [|left; constructor].
    apply (tally_unique _ _ _ _ Td (tally_same_class [LText ""; LText "a"; LText ""] (LText ""))).
Qed.

Lemma zero_text_refuted :
  exists y k act, let l := y in picks act y l /\ classes l /\
    rbind (class_probabilities ex_repr act y) most_probable = Ok (LText "zero") /\
    stacked_class_predictions [(k, act)] (YVector y) = Ok [(k, LNum (Fin 0))].
Proof.
  exists [LText "zero"; LText "zero"], "r", [1; 1]%Z. cbv zeta. split; [pick|].
  split; [right; intros c H; cbn in H; repeat destruct H as [<-|H]; eauto; contradiction|].
  split; vm_compute; reflexivity.
Qed.

(** ** Criteria *)

Lemma mae_norm_refuted :
  exists p ys rs m d, residuals p (map Fin ys) rs /\ average ys m /\
    average (map (fun q => Qabs (q - m)) ys) d /\ ~ (d == 0)%Q /\
    mae_function (VSeries p) (map Fin ys) = Ok (MNum (Fin (1 # 2))) /\
    calc_regression_criterion (VSeries p) (map Fin ys) (Some "mae_norm") = Ok (MNum PInf).
Proof.
  exists [Fin 1; Fin 2], [1%Q; 3%Q], [(1 - 1)%Q; (2 - 3)%Q], 2%Q, 1%Q.
  split; [apply res_both; apply res_both; apply res_nil|].
  split; [split; [discriminate|reflexivity]|]. split; [split; [discriminate|reflexivity]|].
  split; [discriminate|]. split; vm_compute; reflexivity.
Qed.

Lemma rate_no_prediction_refuted :
  exists act p y, List.length p = List.length act /\ List.length y = List.length act /\
    (exists i, nth_error act i = Some 1%Z) /\
    calc_classification_criterion (ActArray act) (List.length act) (QSeries p) (YVector y) None = Err EZeroDiv.
Proof.
  exists [1; 1]%Z, [LNum NaN; LNum NaN], [LNum (Fin 1); LNum (Fin 2)].
  repeat split. exists O. auto.
Qed.

Lemma unknown_method_refuted :
  exists cols p y s, ~ ignoring_case s "success_rate" /\
    calc_classification_criterion (ActFrame cols) 2 (QByRule p) (YVector y) (Some s) = Ok (RSeries [("r", Fin (1 # 2))]) /\
    calc_classification_criterion (ActArray [1; 1]%Z) 2 (QLabel (LNum (Fin 1))) (YVector y) (Some s) = Err EValue.
Proof.
  exists [("r", [1; 1]%Z)], [("r", LNum (Fin 1))], [LNum (Fin 1); LNum (Fin 2)], "recall".
  split; [rewrite ignoring_case_lower; discriminate|]. split; vm_compute; reflexivity.
Qed.

Lemma rate_nan_targets_refuted :
  exists act y k c, bits act /\
    calc_classification_criterion (ActArray act) 2 (QLabel c) (YVector y) None = Ok (RNum (Fin (1 # 2))) /\
    calc_classification_criterion (ActFrame [(k, act)]) 2 (QByRule [(k, c)]) (YVector y) None = Ok (RSeries [(k, Fin 1)]).
Proof.
  exists [1; 1]%Z, [LNum (Fin 3); LNum NaN], "r", (LNum (Fin 3)).
  split; [repeat (constructor; [lia|]); constructor|]. split; vm_compute; reflexivity.
Qed.

(** Predictions of classification rules, without stacked activations. *)
From Coq Require Import List ZArith QArith Bool String Ascii Lia Lqa.
From Coq Require Import List.
From Verif Require Import Base Num Arith CondModel CondSpec CondBase ThrModel ThrProofs MetModel MetSpec MetReg MetClass RuleModel
  RuleSpec RuleProofs RuleValues RuleEval RuleMisc PredModel PredSpec PredReg PredEqual PredStack.
Import ListNotations.
Open Scope string_scope.
Open Scope list_scope.
Open Scope Z_scope.

(** ** Weight of a class *)

Definition backs (i : nat) (c : label) (b : ballot label) : bool :=
  (nth i (b_active b) 0 =? 1) && label_eqb c (b_value b).

Definition favor (i : nat) (c : label) (bs : list (ballot label)) : Q := qsum (map b_weight (filter (backs i c) bs)).

Lemma backs_spec i c b : backs i c b = true <-> active i b /\ same_class c (b_value b).
Proof. unfold backs, active. rewrite andb_true_iff, Z.eqb_eq, label_eqb_spec. tauto. Qed.

Lemma favor_cons i c b bs : favor i c (b :: bs) = if backs i c b then (b_weight b + favor i c bs)%Q else favor i c bs.
Proof. unfold favor. cbn [filter]. destruct (backs i c b); auto. Qed.

Lemma favor_favors i c bs : favors i c bs (favor i c bs).
Proof.
  induction bs as [|b t IH]; [apply favors_nil|]. rewrite favor_cons. destruct (backs i c b) eqn:B.
  - apply backs_spec in B. apply favors_for; tauto.
  - apply favors_not; auto. rewrite <- backs_spec. congruence.
Qed.

Lemma favors_favor i c bs q : favors i c bs q -> (q == favor i c bs)%Q.
Proof.
  induction 1 as [|b bs q A S _ IH|b bs q N _ IH]; [reflexivity| |]; rewrite favor_cons.
  - rewrite (proj2 (backs_spec i c b)) by auto. rewrite IH. reflexivity.
  - destruct (backs i c b) eqn:B; auto. apply backs_spec in B. contradiction.
Qed.

Lemma favor_app i c bs cs : (favor i c (bs ++ cs) == favor i c bs + favor i c cs)%Q.
Proof. unfold favor. rewrite filter_app, map_app. apply qsum_app. Qed.

Lemma backs_same i c d b : same_class c d -> backs i c b = backs i d b.
Proof.
  intros S. unfold backs. f_equal. destruct (label_eqb d (b_value b)) eqn:X.
  - apply label_eqb_spec. apply label_eqb_spec in X. eapply same_class_trans; eauto.
  - apply label_eqb_false. apply label_eqb_false in X. intros Y. apply X. eapply same_class_trans; [apply same_class_sym; eauto|auto].
Qed.

Lemma favor_same i c d bs : same_class c d -> favor i c bs = favor i d bs.
Proof. intros S. unfold favor. f_equal. f_equal. apply filter_ext. intros b. apply backs_same. auto. Qed.

Lemma qsum_nonneg l : (forall q, In q l -> 0 <= q)%Q -> (0 <= qsum l)%Q.
Proof.
  unfold qsum. induction l as [|x t IH]; intros H; cbn [fold_right]; [apply Qle_refl|].
  assert (0 <= x)%Q by (apply H; left; auto). assert (0 <= fold_right Qplus 0 t)%Q by (apply IH; intros q Q; apply H; right; auto). lra.
Qed.

Lemma favor_nonneg i c bs : fair bs -> (0 <= favor i c bs)%Q.
Proof.
  intros F. apply qsum_nonneg. intros q Q. apply in_map_iff in Q as (b & <- & B). apply filter_In in B as (B & _).
  apply Qlt_le_weak. apply F. auto.
Qed.

Lemma favor_pos i c bs : fair bs -> (0 < favor i c bs)%Q <-> exists b, In b bs /\ active i b /\ same_class c (b_value b).
Proof.
  intros F. split.
  - intros P. unfold favor in P. destruct (filter (backs i c) bs) as [|b t] eqn:X; [cbn in P; lra|].
    assert (B : In b (filter (backs i c) bs)) by (rewrite X; left; auto). apply filter_In in B as (B1 & B2).
    apply backs_spec in B2. exists b. tauto.
  - intros (b & B & A & S). induction bs as [|d t IH]; [contradiction|].
    assert (FT : fair t) by (intros x X; apply F; right; auto). rewrite favor_cons. destruct B as [->|B].
    + rewrite (proj2 (backs_spec i c b)) by auto. pose proof (favor_nonneg i c t FT). assert (0 < b_weight b)%Q by (apply F; left; auto). lra.
    + specialize (IH FT B). destruct (backs i c d); auto. assert (0 < b_weight d)%Q by (apply F; left; auto). lra.
Qed.

(** ** The table of votes *)

Definition separate (preds : votes) : Prop := ForallOrdPairs (fun p q => ~ same_class (fst p) (fst q)) preds.

Definition tabled (n : nat) (bs : list (ballot label)) (preds : votes) : Prop :=
  separate preds /\
  (forall c u, In (c, u) preds -> comparable c /\ List.length u = n /\
     forall i, (i < n)%nat -> exists q, nth i u NaN = Fin q /\ (q == favor i c bs)%Q) /\
  (forall b i, In b bs -> (i < n)%nat -> active i b -> exists c u, In (c, u) preds /\ same_class c (b_value b)) /\
  (forall c u, In (c, u) preds -> exists b, In b bs /\ same_class c (b_value b)).

Lemma tabled_nil n : tabled n [] [].
Proof. split; [constructor|]. split; [intros c u []|]. split; [intros b i []|intros c u []]. Qed.

Lemma vote_column b i c : bits (b_active b) ->
  (favor i c [b] == if label_eqb c (b_value b) then inject_Z (nth i (b_active b) 0%Z) * b_weight b else 0)%Q.
Proof.
  intros B. unfold favor, backs. cbn [filter]. destruct (nth_bits _ i B) as [-> | -> ]; cbn [Z.eqb Pos.eqb andb];
    destruct (label_eqb c (b_value b)); cbn [map]; unfold qsum; cbn [fold_right]; unfold inject_Z; ring.
Qed.

Definition ballot_row (b : ballot label) : list num := map (fun a => nmul (numz a) (Fin (b_weight b))) (b_active b).

Lemma comparable_same c : comparable c -> same_class c c.
Proof. destruct c as [x|s]; intros H; constructor; [intros ->; apply H; auto|apply same_num_refl]. Qed.

(** A vote changes the numbers of its class only. *)
Lemma vote_ok n b preds : comparable (b_value b) -> separate preds -> (forall c u, In (c, u) preds -> List.length u = n) ->
  List.length (b_active b) = n ->
  exists preds', vote (b_value b) (ballot_row b) preds = Ok preds' /\ separate preds' /\
    (forall c u', In (c, u') preds' ->
      (same_class (b_value b) c /\
        ((exists u, In (c, u) preds /\ u' = zip_with nadd u (ballot_row b)) \/
         (c = b_value b /\ u' = ballot_row b /\ forall d u, In (d, u) preds -> ~ same_class (b_value b) d))) \/
      (~ same_class (b_value b) c /\ In (c, u') preds)) /\
    (forall d u, In (d, u) preds -> exists u', In (d, u') preds') /\
    (exists d u', In (d, u') preds' /\ same_class (b_value b) d).
Proof.
  intros CM. induction preds as [|[c u] t IH]; intros S L LB.
  - exists [(b_value b, ballot_row b)]. split; auto. split; [repeat constructor|]. split; [|split].
    + intros d u' [H|[]]. injection H as <- <-. left. split; [apply comparable_same; auto|]. right. repeat split; auto.
    + intros d u [].
    + eexists. eexists. split; [left; reflexivity|]. apply comparable_same. auto.
  - inversion S as [|? ? S1 S2]. subst. rewrite Forall_forall in S1.
    assert (LU : List.length u = List.length (b_active b)) by (rewrite (L c u) by (left; auto); auto).
    cbn [vote]. rewrite broadcasts_true, repeated_same, same_length_true by (unfold ballot_row; rewrite map_length; auto). cbn [negb andb].
    destruct (label_eqb (b_value b) c) eqn:E.
    + apply label_eqb_spec in E. eexists. split; [reflexivity|]. split; [|split; [|split]].
      * constructor; auto. rewrite Forall_forall. intros x X. exact (S1 x X).
      * intros d u' [H|H].
        -- injection H as <- <-. left. split; auto. left. exists u. split; [left; auto|auto].
        -- right. split; [|right; auto]. intros X. apply (S1 (d, u') H). cbn [fst].
           eapply same_class_trans; [apply same_class_sym; exact E|exact X].
      * intros d u0 [H|H]; [injection H as <- <-; eexists; left; reflexivity|exists u0; right; auto].
      * eexists. eexists. split; [left; reflexivity|auto].
    + apply label_eqb_false in E. destruct IH as (p' & V & S' & P1 & P2 & P3); auto.
      { intros d u0 H. apply (L d u0). right. auto. }
      rewrite V. cbn [rmap]. eexists. split; [reflexivity|]. split; [|split; [|split]].
      * constructor; auto. rewrite Forall_forall. intros [d u'] H. cbn [fst]. destruct (P1 d u' H) as [(X1 & [(u0 & X2 & _)|(-> & _)])|(_ & X2)].
        -- apply (S1 (d, u0) X2).
        -- intros Y. apply E. apply same_class_sym. auto.
        -- apply (S1 (d, u') X2).
      * intros d u' [H|H].
        -- injection H as <- <-. right. split; auto. left. auto.
        -- destruct (P1 d u' H) as [(X1 & [(u0 & X2 & X3)|(X2 & X3 & X4)])|(X1 & X2)].
           ++ left. split; auto. left. exists u0. split; [right; auto|auto].
           ++ left. split; auto. right. split; auto. split; auto. intros d' u0 [H'|H']; [injection H' as <- <-; auto|eauto].
           ++ right. split; auto. right. auto.
      * intros d u0 [H|H]; [injection H as <- <-; eexists; left; reflexivity|].
        destruct (P2 d u0 H) as (u' & X). exists u'. right. auto.
      * destruct P3 as (d & u' & X1 & X2). exists d, u'. split; [right; auto|auto].
Qed.

Lemma tabled_next n b bs preds : tabled n bs preds -> comparable (b_value b) -> bits (b_active b) -> List.length (b_active b) = n ->
  exists preds', vote (b_value b) (ballot_row b) preds = Ok preds' /\ tabled n (bs ++ [b]) preds'.
Proof.
  intros (S & T1 & T2 & T3) CM B L.
  destruct (vote_ok n b preds CM S) as (p' & V & S' & P1 & P2 & P3); auto.
  { intros c u H. apply (T1 c u H). }
  exists p'. split; auto. split; auto. split; [|split].
  - intros c u' H. assert (R : forall i, (i < n)%nat -> nth i (ballot_row b) NaN = Fin (inject_Z (nth i (b_active b) 0) * b_weight b)).
    { intros i I. unfold ballot_row. rewrite nth_map with (d := 0) by congruence. auto. }
    destruct (P1 c u' H) as [(X1 & [(u & X2 & ->)|(-> & -> & X4)])|(X1 & X2)].
    + destruct (T1 c u X2) as (C & LU & Q). split; auto. split; [rewrite zip_length; auto; unfold ballot_row; rewrite map_length; congruence|].
      intros i I. rewrite zip_nth with (a := NaN) (b := NaN); [|unfold ballot_row; rewrite map_length; congruence|congruence].
      destruct (Q i I) as (q & -> & Q1). rewrite R by auto. cbn [nadd]. eexists. split; [reflexivity|].
      rewrite favor_app, vote_column by auto. rewrite (proj2 (label_eqb_spec c (b_value b))) by (apply same_class_sym; auto).
      rewrite Q1. reflexivity.
    + split; auto. split; [unfold ballot_row; rewrite map_length; auto|]. intros i I. rewrite R by auto. eexists. split; [reflexivity|].
      rewrite favor_app, vote_column by auto. rewrite (proj2 (label_eqb_spec _ _)) by (apply comparable_same; auto).
      assert (Z : filter (backs i (b_value b)) bs = []).
      { destruct (filter (backs i (b_value b)) bs) as [|d t] eqn:X; auto. exfalso.
        assert (D : In d (filter (backs i (b_value b)) bs)) by (rewrite X; left; auto). apply filter_In in D as (D1 & D2).
        apply backs_spec in D2. destruct (T2 d i D1 I (proj1 D2)) as (c & u & C1 & C2). apply (X4 c u C1).
        eapply same_class_trans; [exact (proj2 D2)|]. apply same_class_sym. auto. }
      unfold favor. rewrite Z. cbn [map qsum fold_right]. ring.
    + destruct (T1 c u' X2) as (C & LU & Q). split; auto. split; auto. intros i I. destruct (Q i I) as (q & E & Q1). exists q. split; auto.
      rewrite favor_app, vote_column by auto.
      replace (label_eqb c (b_value b)) with false; [rewrite Q1; ring|].
      symmetry. apply label_eqb_false. intros Y. apply X1. apply same_class_sym. auto.
  - intros d i D I A. apply in_app_or in D as [D|[<-|[]]].
    + destruct (T2 d i D I A) as (c & u & C1 & C2). destruct (P2 c u C1) as (u' & X). exists c, u'. auto.
    + destruct P3 as (c & u' & X1 & X2). exists c, u'. split; auto. apply same_class_sym. auto.
  - intros c u' H. destruct (P1 c u' H) as [(X1 & _)|(X1 & X2)].
    + exists b. split; [apply in_or_app; right; left; auto|apply same_class_sym; auto].
    + destruct (T3 c u' X2) as (d & D1 & D2). exists d. split; auto. apply in_or_app. auto.
Qed.

(** A ballot without active row changes nothing. *)
Lemma tabled_idle n b bs preds : tabled n bs preds -> (forall i, ~ active i b) -> tabled n (bs ++ [b]) preds.
Proof.
  intros (S & T1 & T2 & T3) N. split; auto. split; [|split].
  - intros c u H. destruct (T1 c u H) as (C & L & Q). split; auto. split; auto. intros i I. destruct (Q i I) as (q & E & Q1). exists q. split; auto.
    rewrite favor_app, Q1. replace (favor i c [b]) with 0%Q; [ring|]. unfold favor. cbn [filter].
    destruct (backs i c b) eqn:X; auto. apply backs_spec in X. destruct (N i). tauto.
  - intros d i D I A. apply in_app_or in D as [D|[<-|[]]]; [eauto|]. destruct (N i A).
  - intros c u H. destruct (T3 c u H) as (d & D1 & D2). exists d. split; auto. apply in_or_app. auto.
Qed.

(** ** The loop *)

Lemma nones_zero v : bits v -> (nones (new_activation v) =? 0) = true <-> forall i, nth i v 0 <> 1.
Proof.
  intros B. unfold nones, new_activation. cbn [v_bits]. rewrite Z.eqb_eq. split.
  - intros H i X. assert (I : In 1 v).
    { rewrite <- X. apply nth_In. destruct (Nat.lt_ge_cases i (List.length v)); auto. rewrite nth_overflow in X by auto. discriminate. }
    assert (F : In 1 (filter (fun x => x =? 1) v)) by (apply filter_In; auto).
    destruct (filter (fun x => x =? 1) v); [contradiction|]. cbn [List.length] in H. lia.
  - intros H. destruct (filter (fun x => x =? 1) v) as [|x t] eqn:X; auto. exfalso.
    assert (I : In x (filter (fun x => x =? 1) v)) by (rewrite X; left; auto). apply filter_In in I as (I & Y). apply Z.eqb_eq in Y. subst.
    destruct (In_nth _ _ 0 I) as (i & _ & E). apply (H i). auto.
Qed.

(** The vector and the number of active rows of a rule *)
Lemma vote_vector xs r v : working r xs v -> bits v ->
  match xs with
  | None => rbind (activation_vector r) (fun o => match r_act r with None => Err EAttr | Some a => Ok (o, nones a) end)
  | Some t => rbind (evaluate_activation r t) (fun a => rmap (fun v => (Some v, nones a)) (raw a))
  end = Ok (match v with [] => match xs with None => None | Some _ => Some [] end | _ => Some v end, nones (new_activation v)).
Proof.
  intros W B. destruct xs as [t|].
  - destruct W as (c & C & V). unfold evaluate_activation. rewrite C, V. cbn. destruct v; auto.
  - destruct W as (a & A & R). unfold activation_vector. rewrite A, R. apply raw_inv in R. destruct R as (_ & R).
    unfold alen, nones, new_activation. cbn [v_bits]. rewrite R. destruct v; auto.
Qed.

Section Votes.
Variables (E : env) (weights : list (string * num)) (xs : option table).
Hypothesis distinct_weights : NoDup (map fst weights).

Lemma weight_of_ok s : exists o, weight_of weights s = Ok o.
Proof.
  unfold weight_of. destruct (entries s weights) as [|w [|w' t]] eqn:X; eauto.
  - destruct (neqb w (Fin 0)); eauto. destruct (is_nan w); eauto.
  - exfalso. assert (I : In w (entries s weights)) by (rewrite X; left; auto). unfold entries in I.
    apply in_map_iff in I as ((s' & w0) & Y1 & Y2). cbn in Y1. subst w0. apply filter_In in Y2 as (Y2 & Y3).
    apply String.eqb_eq in Y3. cbn in Y3. subst s'. rewrite (entries_one s w weights distinct_weights Y2) in X. discriminate.
Qed.

Lemma vote_ignored r preds : casts E weights class_object xs r None -> xs <> None \/ r_act r <> None ->
  vote_step E weights xs r preds = Ok preds.
Proof.
  intros C P. inversion C as [s S U|s S G|]; subst; unfold vote_step; rewrite (called_name E r s S); cbn [rbind].
  - rewrite weight_ignored; auto.
  - destruct (weight_of_ok s) as (o & ->). cbn [rbind]. destruct o as [w|]; auto.
    destruct G as [(-> & N)|W]; [destruct P; congruence|].
    assert (B : bits []) by constructor. rewrite (vote_vector xs r [] W B). cbn [rbind]. destruct xs; auto.
Qed.

Lemma vote_counts r b n bs preds : casts E weights class_object xs r (Some b) -> List.length (b_active b) = n ->
  comparable (b_value b) -> tabled n bs preds ->
  exists preds', vote_step E weights xs r preds = Ok preds' /\ tabled n (bs ++ [b]) preds'.
Proof.
  intros C L CM T. inversion C as [| |s w p v S I W (F & P & K & B & V)]; subst. cbn [b_active b_value] in *.
  unfold vote_step. rewrite (called_name E r s S). cbn [rbind]. rewrite (weight_found weights s w); auto. cbn [rbind].
  rewrite (vote_vector xs r v K B). cbn [rbind]. destruct v as [|a v]; [congruence|].
  destruct (nones (new_activation (a :: v)) =? 0) eqn:Z.
  - exists preds. split; auto. apply tabled_idle; auto. unfold active. cbn [b_active]. apply nones_zero; auto.
  - rewrite prediction_attr in P. rewrite P. cbn [rbind].
    replace (class_of (class_object p)) with (Ok p) by (destruct p; auto). cbn [rbind].
    apply (tabled_next (List.length (a :: v)) (mkBallot w p (a :: v)) bs preds); auto.
Qed.

Lemma vote_loop_ok rules bs : collected (casts E weights class_object xs) rules bs ->
  forall n bs0 preds, rows n bs -> (forall b, In b bs -> comparable (b_value b)) -> all_present xs rules -> tabled n bs0 preds ->
  exists preds', vote_loop E weights xs rules preds = Ok preds' /\ tabled n (bs0 ++ bs) preds'.
Proof.
  induction 1 as [|r t bs C _ IH|r t b bs C _ IH]; intros n bs0 preds R CM AP T; cbn [vote_loop].
  - exists preds. rewrite app_nil_r. auto.
  - rewrite vote_ignored; auto; [|apply AP; left; auto]. cbn [rbind]. apply IH; auto. intros x X. apply AP. right. auto.
  - destruct (vote_counts r b n bs0 preds C) as (p' & -> & T'); auto.
    { apply R. left. auto. }
    { apply CM. left. auto. }
    cbn [rbind]. replace (bs0 ++ b :: bs) with ((bs0 ++ [b]) ++ bs) by (rewrite <- app_assoc; auto).
    apply IH; auto.
    + intros x X. apply R. right. auto.
    + intros x X. apply CM. right. auto.
    + intros x X. apply AP. right. auto.
Qed.

End Votes.

(** ** The winner of a row *)

Lemma largest_fin (l : list num) qs : l = map Fin qs -> qs <> [] ->
  exists m, largest l = Fin m /\ In m qs /\ forall q, In q qs -> (q <= m)%Q.
Proof.
  intros -> N. unfold largest.
  assert (D : drop_nan (map Fin qs) = map Fin qs) by (clear; induction qs; cbn; f_equal; auto).
  rewrite D. destruct qs as [|x t]; [congruence|]. cbn [map]. clear N D. revert x.
  induction t as [|y t IH]; intros x; cbn [map first_max].
  - exists x. split; auto. split; [left; auto|]. intros q [<-|[]]. apply Qle_refl.
  - cbn [nltb]. destruct (qltb x y) eqn:X.
    + destruct (IH y) as (m & E & I & M). exists m. split; auto. split; [right; auto|]. intros q [<-|Q]; auto.
      apply qltb_spec in X. apply Qle_trans with y; [apply Qlt_le_weak; auto|]. apply M. left. auto.
    + destruct (IH x) as (m & E & I & M). exists m. split; auto. split; [destruct I; [left; auto|right; right; auto]|].
      intros q [<-|[<-|Q]]; [apply M; left; auto| |apply M; right; auto].
      assert (y <= x)%Q by (apply Qnot_lt_le; intros Y; apply qltb_spec in Y; congruence).
      apply Qle_trans with x; auto. apply M. left. auto.
Qed.

(** The first of the rows of a table that differ pairwise *)
Lemma unique_row {A} (f : A -> bool) l x : In x l -> f x = true -> (forall y, In y l -> f y = true -> y = x) -> NoDup l -> filter f l = [x].
Proof.
  intros I X U N. assert (NF : NoDup (filter f l)) by (apply NoDup_filter; auto).
  assert (IF : In x (filter f l)) by (apply filter_In; auto).
  destruct (filter f l) as [|y [|z t]] eqn:E; [contradiction| |].
  - destruct IF as [->|[]]. auto.
  - assert (Y : y = x) by (apply U; apply (proj1 (filter_In f y l)); rewrite E; left; auto).
    assert (Z : z = x) by (apply U; apply (proj1 (filter_In f z l)); rewrite E; right; left; auto).
    subst. inversion NF as [|? ? H]. destruct H. left. auto.
Qed.

Lemma separate_unique (preds : votes) p q : separate preds -> (forall r, In r preds -> comparable (fst r)) -> In p preds -> In q preds ->
  same_class (fst p) (fst q) -> p = q.
Proof.
  intros S CM P Q C. induction S as [|r t H S IH]; [contradiction|]. rewrite Forall_forall in H.
  assert (CT : forall r, In r t -> comparable (fst r)) by (intros x X; apply CM; right; auto).
  destruct P as [->|P], Q as [->|Q]; auto.
  - destruct (H q Q C).
  - destruct (H p P (same_class_sym _ _ C)).
Qed.

Lemma separate_nodup (preds : votes) : separate preds -> (forall r, In r preds -> comparable (fst r)) -> NoDup preds.
Proof.
  intros S CM. induction S as [|r t H S IH]; constructor.
  - intros I. rewrite Forall_forall in H. apply (H r I). apply comparable_same. apply CM. left. auto.
  - apply IH. intros x X. apply CM. right. auto.
Qed.

Lemma winner_ok n bs preds i : tabled n bs preds -> (i < n)%nat -> fair bs -> preds <> [] ->
  is_verdict i bs (winner (map (fun p => (fst p, cell NaN i (snd p))) preds)).
Proof.
  intros (S & T1 & T2 & T3) I F PN. unfold winner.
  assert (CP : forall r, In r preds -> comparable (fst r)) by (intros [c u] R; apply (T1 c u R)).
  assert (X : exists qs, map (fun p : label * list num => cell NaN i (snd p)) preds = map Fin qs /\
    Forall2 (fun p q => (q == favor i (fst p) bs)%Q /\ cell NaN i (snd p) = Fin q) preds qs).
  { clear -T1 I. induction preds as [|[c u] t IH]; [exists []; auto|]. destruct IH as (qs & E & G).
    - intros d v H. apply T1. right. auto.
    - destruct (T1 c u) as (_ & _ & Q); [left; auto|]. destruct (Q i I) as (q & Q1 & Q2). exists (q :: qs). split.
      + cbn [map snd]. unfold cell at 1. rewrite Q1, E. auto.
      + constructor; auto. }
  destruct X as (qs & E & G). rewrite map_map. cbn [fst snd].
  assert (QN : qs <> []) by (intros ->; destruct preds; [congruence|discriminate]).
  destruct (largest_fin _ qs E QN) as (m & -> & M1 & M2).
  assert (V : forall p, In p preds -> exists q, cell NaN i (snd p) = Fin q /\ (q == favor i (fst p) bs)%Q /\ (q <= m)%Q).
  { clear -G M2. intros p P. assert (W : exists q, In q qs /\ (q == favor i (fst p) bs)%Q /\ cell NaN i (snd p) = Fin q).
    { clear M2. induction G as [|a b l k H _ IH]; [contradiction|]. destruct P as [->|P].
      - exists b. split; [left; auto|auto].
      - destruct (IH P) as (q & Q1 & Q2). exists q. split; [right; auto|auto]. }
    destruct W as (q & Q1 & Q2 & Q3). exists q. auto. }
  assert (W : exists p, In p preds /\ (m == favor i (fst p) bs)%Q).
  { clear -G M1. induction G as [|a b l k H _ IH]; [contradiction|]. destruct M1 as [->|M1].
    - exists a. split; [left; auto|tauto].
    - destruct (IH M1) as (p & P1 & P2). exists p. split; [right; auto|auto]. }
  (* a class with a positive weight is in the table *)
  assert (Z : forall c, (0 < favor i c bs)%Q -> exists p, In p preds /\ same_class c (fst p)).
  { intros c C. apply favor_pos in C as (b & B1 & B2 & B3); auto. destruct (T2 b i B1 I B2) as (d & u & D1 & D2).
    exists (d, u). split; auto. eapply same_class_trans; [exact B3|]. apply same_class_sym. auto. }
  cbn [neqb]. destruct (Qeq_bool m 0) eqn:M0.
  - apply Qeq_bool_iff in M0. right. split; auto. intros c (q & C1 & C2 & _). apply favors_favor in C1. rewrite C1 in C2.
    destruct (Z c C2) as (p & P1 & P2). destruct (V p P1) as (q' & _ & Q2 & Q3). rewrite (favor_same i c (fst p)) in C2 by auto. lra.
  - assert (M0' : ~ (m == 0)%Q) by (intros Y; apply Qeq_bool_iff in Y; congruence).
    assert (MP : (0 < m)%Q).
    { destruct W as (p & _ & P2). pose proof (favor_nonneg i (fst p) bs F) as Y. rewrite <- P2 in Y.
      apply Qle_lteq in Y as [Y|Y]; auto. destruct M0'. rewrite Y. reflexivity. }
    assert (NN : existsb (fun p : label * num => is_nan (snd p)) (map (fun p : label * list num => (fst p, cell NaN i (snd p))) preds) = false).
    { apply existsb_false. intros x X. apply in_map_iff in X as (p & <- & P). destruct (V p P) as (q & Q & _). cbn [snd]. rewrite Q. auto. }
    rewrite NN.
    rewrite (filter_map_in _ _ (fun p => neqb (cell NaN i (snd p)) (Fin m))) by auto.
    assert (TOP : forall p, In p preds -> neqb (cell NaN i (snd p)) (Fin m) = true <-> (favor i (fst p) bs == m)%Q).
    { intros p P. destruct (V p P) as (q & -> & Q2 & _). cbn [neqb]. rewrite Qeq_bool_iff. rewrite Q2. tauto. }
    (* a winner is the only top *)
    assert (WIN : forall c, wins i bs c -> exists p, In p preds /\ same_class c (fst p) /\ (favor i (fst p) bs == m)%Q /\
       forall p', In p' preds -> (favor i (fst p') bs == m)%Q -> p' = p).
    { intros c (q & C1 & C2 & C3). apply favors_favor in C1. assert (C2' : (0 < favor i c bs)%Q) by (rewrite <- C1; auto).
      destruct (Z c C2') as (p & P1 & P2). exists p. split; auto. split; auto. rewrite (favor_same i c (fst p)) in C1 by auto.
      assert (ALL : forall p', In p' preds -> ~ same_class c (fst p') -> (favor i (fst p') bs < q)%Q).
      { intros [d u] P' N. destruct (T3 d u P') as (b & B1 & B2). cbn [fst] in *. rewrite (favor_same i d (b_value b)) by auto.
        apply (C3 b); auto; [|apply favor_favors]. intros Y. apply N. eapply same_class_trans; [exact Y|]. apply same_class_sym. auto. }
      assert (EQ : (favor i (fst p) bs == m)%Q).
      { destruct W as (p' & W1 & W2). destruct (V p P1) as (a & _ & A2 & A3).
        destruct (same_class_dec c (fst p')) as [Y|Y].
        - rewrite W2. assert (p' = p).
          { apply (separate_unique preds); auto. eapply same_class_trans; [apply same_class_sym; exact Y|exact P2]. }
          subst. reflexivity.
        - pose proof (ALL p' W1 Y). lra. }
      split; auto. intros p' P' Q'. destruct (same_class_dec c (fst p')) as [Y|Y].
      - apply (separate_unique preds); auto. eapply same_class_trans; [apply same_class_sym; exact Y|exact P2].
      - pose proof (ALL p' P' Y). lra. }
    destruct W as (p & W1 & W2).
    assert (DEC : (forall p', In p' preds -> (favor i (fst p') bs == m)%Q -> p' = p) \/
                  exists p', In p' preds /\ (favor i (fst p') bs == m)%Q /\ p' <> p).
    { assert (SD : forall a, In a preds -> a = p \/ ~ a = p).
      { intros a A. destruct (same_class_dec (fst a) (fst p)) as [Y|Y].
        - left. apply (separate_unique preds); auto.
        - right. intros ->. apply Y. apply comparable_same. auto. }
      clear -SD TOP. assert (H : forall l, incl l preds -> (forall p', In p' l -> (favor i (fst p') bs == m)%Q -> p' = p) \/
                  exists p', In p' l /\ (favor i (fst p') bs == m)%Q /\ p' <> p).
      { induction l as [|a l IH]; intros L; [left; intros p' []|]. destruct IH as [IH|(p' & P1 & P2)]; [intros x X; apply L; right; auto| |].
        - destruct (SD a) as [A|A]; [apply L; left; auto| |].
          + left. intros p' [<-|P'] Q; auto.
          + destruct (Qeq_dec (favor i (fst a) bs) m) as [Y|Y].
            * right. exists a. split; [left; auto|auto].
            * left. intros p' [<-|P'] Q; [contradiction|auto].
        - right. exists p'. split; [right; auto|auto]. }
      apply H. intros x; auto. }
    destruct DEC as [U|(p' & P1 & P2 & P3)].
    + rewrite (unique_row (fun p => neqb (cell NaN i (snd p)) (Fin m)) preds p); auto.
      * cbn [map]. left. exists (fst p). split; [|apply comparable_same; auto].
        exists (favor i (fst p) bs). split; [apply favor_favors|]. split; [rewrite <- W2; auto|].
        intros b q B N Q. apply favors_favor in Q. rewrite Q.
        destruct (Qlt_le_dec 0 (favor i (b_value b) bs)) as [Y|Y]; [|rewrite <- W2; lra].
        destruct (Z (b_value b) Y) as (p' & P1 & P2). rewrite (favor_same i (b_value b) (fst p')) by auto.
        destruct (V p' P1) as (a & _ & A2 & A3).
        assert (NE : ~ (favor i (fst p') bs == m)%Q).
        { intros Z'. apply N. rewrite <- (U p' P1 Z'). apply same_class_sym. auto. }
        assert (LE : (favor i (fst p') bs <= m)%Q) by (rewrite <- A2; auto).
        rewrite <- W2. apply Qle_lteq in LE as [LE|LE]; auto. contradiction.
      * apply TOP; auto. rewrite <- W2. reflexivity.
      * intros y Y1 Y2. apply U; auto. apply TOP; auto.
      * apply separate_nodup; auto.
    + right. split.
      * intros c C. destruct (WIN c C) as (p0 & _ & _ & Q3 & Q4). apply P3. rewrite (Q4 p' P1 P2), (Q4 p W1); auto. rewrite <- W2. reflexivity.
      * assert (L : forall l, NoDup l -> In p l -> In p' l -> (forall x, In x l -> In x preds) ->
            exists x y t, filter (fun p => neqb (cell NaN i (snd p)) (Fin m)) l = x :: y :: t).
        { intros l NL A B C. assert (A' : In p (filter (fun p => neqb (cell NaN i (snd p)) (Fin m)) l)).
          { apply filter_In. split; auto. apply TOP; auto. rewrite <- W2. reflexivity. }
          assert (B' : In p' (filter (fun p => neqb (cell NaN i (snd p)) (Fin m)) l)) by (apply filter_In; split; auto; apply TOP; auto).
          destruct (filter _ l) as [|x [|y t]]; eauto; [contradiction|]. destruct A' as [->|[]], B' as [->|[]]. congruence. }
        destruct (L preds) as (x & y & t & ->); auto. apply separate_nodup; auto.
Qed.

Lemma tabled_nonempty n bs preds : tabled n bs preds -> somebody n bs -> preds <> [].
Proof. intros (_ & _ & T & _) (b & i & B & I & A) ->. destruct (T b i B I A) as (c & u & [] & _). Qed.

Lemma weighted_votes E rules weights xs bs n :
  NoDup (map fst weights) -> all_present xs rules -> collected (casts E weights class_object xs) rules bs -> rows n bs -> fair bs ->
  somebody n bs ->
  exists l, weighted_classificator_unstacked E rules weights xs = Ok l /\ each_row n (LNum NaN) l (fun i x => is_verdict i bs x).
Proof.
  intros N AP C R F SB. pose proof (collected_nonempty _ _ _ _ C SB) as RN.
  destruct (vote_loop_ok E weights xs N rules bs C n [] []) as (preds & L & T); auto.
  { intros b B. apply F. auto. }
  { apply tabled_nil. }
  cbn [app] in T. pose proof (tabled_nonempty n bs preds T SB) as PN.
  unfold weighted_classificator_unstacked. destruct rules as [|r rules]; [congruence|]. rewrite L. cbn [rbind].
  destruct preds as [|[c u] t] eqn:P; [congruence|]. rewrite <- P in *.
  assert (LU : List.length u = n) by (destruct T as (_ & T & _); apply (T c u); rewrite P; left; auto). rewrite LU.
  eexists. split; [reflexivity|]. split; [rewrite map_length, seq_length; auto|].
  intros i I. rewrite nth_map with (d := O) by (rewrite seq_length; auto). rewrite seq_nth by auto. cbn [Nat.add].
  apply (winner_ok n bs preds i); auto.
Qed.

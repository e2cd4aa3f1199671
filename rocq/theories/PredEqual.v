(** Predictions of regression rules without weights, without stacked activations. *)
From Coq Require Import List ZArith QArith Bool String Ascii Lia Lqa.
From Coq Require Import List.
From Verif Require Import Base Num Arith CondModel CondSpec CondBase ThrModel ThrProofs MetModel MetSpec RuleModel RuleSpec
  RuleProofs RuleValues RuleEval RuleMisc PredModel PredSpec PredReg.
Import ListNotations.
Open Scope string_scope.
Open Scope list_scope.
Open Scope Z_scope.

Definition is_count {A} (i : nat) (bs : list (ballot A)) (c : Z) : Prop :=
  c = Z.of_nat (List.length (at_row i bs)) mod 256.

Section Equal.
Variable xs : option table.

Lemma equal_ignored r acc : casts_one regression_number xs r None -> equal_step xs r acc = (Ok tt, acc).
Proof. intros C. inversion C as [G|]; subst. unfold equal_step. rewrite (usable_absent regression_number); auto. Qed.

Definition first_cells (b : ballot Q) : list num :=
  map (fun a => if a =? 0 then NaN else Fin (b_value b * inject_Z a)) (b_active b).

Lemma equal_first r b : casts_one regression_number xs r (Some b) -> bits (b_active b) /\ b_weight b = 1%Q /\
  equal_step xs r None = (Ok tt, Some (first_cells b, b_active b)).
Proof.
  intros C. inversion C as [|p v (F & P & K & B & V)]; subst. cbn [b_active]. split; auto. split; auto. unfold equal_step.
  rewrite (usable_working xs r v); auto. rewrite (vector_number r v p); auto.
Qed.

Definition tallied n (bs : list (ballot Q)) (acc : option (list num * list Z)) : Prop :=
  exists cum count, acc = Some (cum, count) /\ each_row n NaN cum (fun i => is_total i bs) /\
    each_row n 0 count (fun i => is_count i bs).

Lemma count_next {A} i bs (b : ballot A) c : bits (b_active b) -> is_count i bs c ->
  is_count i (bs ++ [b]) ((c + nth i (b_active b) 0) mod 256).
Proof.
  unfold is_count. intros B ->. rewrite at_row_app, app_length. unfold at_row at 3. cbn [filter].
  destruct (nth_bits _ i B) as [-> | -> ]; cbn [Z.eqb Pos.eqb List.length]; rewrite Zplus_mod_idemp_l; f_equal; lia.
Qed.

Lemma equal_next r b n bs acc : casts_one regression_number xs r (Some b) -> List.length (b_active b) = n ->
  tallied n bs acc -> exists acc', equal_step xs r acc = (Ok tt, acc') /\ tallied n (bs ++ [b]) acc'.
Proof.
  intros C N (cum & count & -> & SC & SW). inversion C as [|p v (F & P & K & B & V)]; subst. cbn [b_active] in *.
  unfold equal_step. rewrite (usable_working xs r v); auto. rewrite prediction_attr in P. rewrite P.
  cbn [rbind regression_number number times_prediction].
  destruct (accumulate_ok (List.length v) bs (mkBallot 1 p v) cum (map (fun x : Z => nmul (numz x) (Fin p)) v)) as (cum' & A & SC'); auto.
  { split; [rewrite map_length; auto|]. intros i Hi. rewrite nth_map with (d := 0) by auto. cbn [nmul numz].
    eexists. split; [reflexivity|]. rewrite total_one by auto. cbn. ring. }
  rewrite A. destruct SW as (LW & SW). rewrite (broadcasts_true count v) by auto. cbn [negb]. rewrite repeated_same by auto.
  eexists. split; [reflexivity|]. exists cum'. eexists. split; [reflexivity|]. split; auto.
  split; [rewrite zip_length; auto|].
  intros i Hi. rewrite zip_nth with (a := 0) (b := 0) by congruence. apply (count_next i bs (mkBallot 1%Q p v)); auto.
Qed.

Lemma equal_rest rules bs : collected (casts_one regression_number xs) rules bs ->
  forall n bs0 acc, rows n bs -> tallied n bs0 acc ->
  exists acc', equal_loop xs rules acc = (Ok tt, acc') /\ tallied n (bs0 ++ bs) acc'.
Proof.
  induction 1 as [|r t bs C _ IH|r t b bs C _ IH]; intros n bs0 acc R S0.
  - exists acc. rewrite app_nil_r. auto.
  - cbn [equal_loop]. rewrite equal_ignored; auto.
  - cbn [equal_loop]. destruct (equal_next r b n bs0 acc C) as (acc' & -> & S1); auto.
    { apply R. left. auto. }
    replace (bs0 ++ b :: bs) with ((bs0 ++ [b]) ++ bs) by (rewrite <- app_assoc; auto).
    apply IH; auto. intros b' B'. apply R. right. auto.
Qed.

Lemma equal_none rules acc : collected (casts_one regression_number xs) rules [] -> equal_loop xs rules acc = (Ok tt, acc).
Proof.
  intros C. remember [] as bs eqn:X. induction C as [|r t bs C _ IH|]; auto; [|discriminate].
  cbn [equal_loop]. rewrite equal_ignored; auto.
Qed.

Lemma equal_start rules b bs : collected (casts_one regression_number xs) rules (b :: bs) ->
  bits (b_active b) /\ b_weight b = 1%Q /\
  exists t, collected (casts_one regression_number xs) t bs /\
    equal_loop xs rules None = equal_loop xs t (Some (first_cells b, b_active b)).
Proof.
  intros C. remember (b :: bs) as all eqn:X. induction C as [|r t bs' C C' IH|r t b' bs' C C' IH]; [discriminate| |].
  - cbn [equal_loop]. rewrite equal_ignored; auto.
  - injection X as -> ->. destruct (equal_first r b C) as (B & W & S1).
    split; auto. split; auto. exists t. cbn [equal_loop]. rewrite S1. auto.
Qed.

End Equal.

Lemma one_weight {A} (value : A -> obj) xs rules bs : collected (casts_one value xs) rules bs ->
  forall b, In b bs -> b_weight b = 1%Q /\ bits (b_active b).
Proof.
  intros C b I. destruct (collected_in _ _ _ C b I) as (r & _ & X). inversion X as [|p v (_ & _ & _ & B & _)]. auto.
Qed.

Lemma weight_count {A} i (bs : list (ballot A)) : (forall b, In b bs -> b_weight b = 1%Q) ->
  (weight i bs == inject_Z (Z.of_nat (List.length (at_row i bs))))%Q.
Proof.
  intros H. unfold weight, qsum. assert (X : forall b, In b (at_row i bs) -> b_weight b = 1%Q).
  { intros b I. apply H. apply filter_In in I. tauto. }
  induction (at_row i bs) as [|b t IH]; [reflexivity|]. cbn [map fold_right List.length].
  rewrite X by (left; auto). rewrite IH by (intros b' B'; apply X; right; auto).
  rewrite Nat2Z.inj_succ. unfold Z.succ. rewrite inject_Z_plus. ring.
Qed.

Lemma first_bits (b : ballot Q) n : bits (b_active b) -> List.length (b_active b) = n -> each_row n 0 (b_active b) (fun i => is_count i [b]).
Proof.
  intros B L. split; auto. intros i I. unfold is_count, at_row. cbn [filter].
  destruct (nth_bits _ i B) as [X|X]; rewrite X; reflexivity.
Qed.

Lemma first_cells_eq b : b_weight b = 1%Q -> List.length (first_cells b) = List.length (b_active b) /\
  forall i, (i < List.length (b_active b))%nat -> nth i (first_cells b) NaN =
    if nth i (b_active b) 0 =? 0 then NaN else Fin (b_value b * inject_Z (nth i (b_active b) 0)).
Proof.
  intros W. unfold first_cells. split; [apply map_length|]. intros i I. rewrite nth_map with (d := 0) by auto. auto.
Qed.

Lemma mean_equal_one b i : bits (b_active b) -> b_weight b = 1%Q -> (i < List.length (b_active b))%nat ->
  is_mean i [b] (ndiv (nth i (first_cells b) NaN) (numz (nth i (b_active b) 0))).
Proof.
  intros B W I. rewrite (proj2 (first_cells_eq b W)) by auto. pose proof (total_one i b B) as T. pose proof (weight_one i b B) as X.
  unfold is_mean, active. destruct (nth_bits _ i B) as [Y|Y]; rewrite Y in *; cbn [Z.eqb].
  - left. split; auto. intros b' [<-|[]]. lia.
  - right. split; [exists b; split; [left; auto|auto]|]. eexists. split; [reflexivity|].
    rewrite T, X, W. cbn. field.
Qed.

Lemma mean_count i bs x c : is_total i bs x -> is_count i bs c -> (forall b, In b bs -> b_weight b = 1%Q) ->
  (List.length (at_row i bs) < 256)%nat -> at_row i bs = [] \/ ~ (total i bs == 0)%Q -> is_mean i bs (ndiv x (numz c)).
Proof.
  intros T C W L N. apply mean_of; auto.
  - unfold is_weight, numz. eexists. split; [reflexivity|]. rewrite (weight_count i bs W). unfold is_count in C.
    rewrite Z.mod_small in C by lia. rewrite C. reflexivity.
  - unfold weighs. destruct (at_row i bs) eqn:X; auto. right. rewrite (weight_count i bs W), X. cbn [List.length].
    intros Z. change 0%Q with (inject_Z 0) in Z. rewrite inject_Z_injective in Z. lia.
Qed.

Lemma equal_unstacked shared rules xs bs n :
  collected (casts_one regression_number xs) rules bs -> rows n bs ->
  (exists b, bs = [b]) \/ (exists b t, bs = b :: t /\ ~ (b_value b == 0)%Q) ->
  exists l, fst (equal_regressor_unstacked shared rules xs) = Ok l /\
    each_row n NaN l (fun i x =>
      (List.length (at_row i bs) < 256)%nat -> List.length bs = 1%nat \/ at_row i bs = [] \/ ~ (total i bs == 0)%Q ->
      is_mean i bs x).
Proof.
  intros C R H. pose proof (one_weight _ _ _ _ C) as OW.
  assert (X : exists b t, bs = b :: t) by (destruct H as [(b & ->)|(b & t & -> & _)]; eauto).
  destruct X as (b & t & ->). destruct (equal_start xs rules b t C) as (B & W & t' & C' & L).
  destruct rules as [|r rules]; [inversion C|]. unfold equal_regressor_unstacked. rewrite L.
  assert (LB : List.length (b_active b) = n) by (apply R; left; auto).
  destruct t as [|b2 t].
  - rewrite (equal_none xs t'); auto. cbn [fst]. unfold quotient.
    rewrite same_length_true by (unfold first_cells; rewrite !map_length; auto). cbn [negb].
    eexists. split; [reflexivity|].
    split; [rewrite zip_length; unfold first_cells; rewrite !map_length; auto|].
    intros i I _ _. rewrite zip_nth with (a := NaN) (b := NaN) by (unfold first_cells; rewrite !map_length; congruence).
    rewrite nth_map with (d := 0) by congruence. apply mean_equal_one; auto. congruence.
  - destruct H as [(? & H)|(b' & ? & H & V)]; [discriminate|]. injection H as <- <-.
    destruct (equal_rest xs t' (b2 :: t) C' n [b] (Some (first_cells b, b_active b)))
      as (acc & -> & (cum & cw & -> & SC & SW')).
    { intros x X. apply R. right. auto. }
    { eexists. eexists. split; [reflexivity|]. split; [|apply first_bits; auto].
      pose proof (first_total b n B LB V) as T. rewrite W in T. specialize (T ltac:(discriminate)).
      destruct T as (_ & T). destruct (first_cells_eq b W) as (L1 & L2). split; [congruence|]. intros i I.
      specialize (T i I). rewrite nth_map with (d := 0) in T by congruence. rewrite L2 by congruence.
      destruct (nth i (b_active b) 0 =? 0); auto. destruct T as [T|(q & T & Q1 & Q2)]; [destruct T; discriminate|].
      right. eexists. split; [reflexivity|]. injection T as T. subst q.
      split; [rewrite <- Q1; ring|]. intros Z. apply Q2. rewrite Z. ring. }
    cbn [fst]. unfold quotient. destruct SC as (LC & SC). destruct SW' as (LW & SW').
    rewrite same_length_true by (rewrite map_length; congruence).
    cbn [negb]. eexists. split; [reflexivity|]. split; [rewrite zip_length; rewrite ?map_length; congruence|].
    intros i I Hn Z. rewrite zip_nth with (a := NaN) (b := NaN) by (rewrite ?map_length; congruence).
    rewrite nth_map with (d := 0) by congruence.
    apply mean_count; [apply (SC i I)|apply (SW' i I)| |exact Hn|].
    + intros x X. apply OW. auto.
    + destruct Z as [Z|Z]; auto. cbn in Z. discriminate.
Qed.

(** ** What goes wrong *)

(** The predictions of several rules that sum up to 0 give NaN. *)
Lemma equal_zero_total shared rules xs b b2 t n :
  collected (casts_one regression_number xs) rules (b :: b2 :: t) -> rows n (b :: b2 :: t) -> ~ (b_value b == 0)%Q ->
  exists l, fst (equal_regressor_unstacked shared rules xs) = Ok l /\
    each_row n NaN l (fun i x => (total i (b :: b2 :: t) == 0)%Q -> x = NaN).
Proof.
  intros C R V. destruct (equal_start xs rules b (b2 :: t) C) as (B & W & t' & C' & L).
  destruct rules as [|r rules]; [inversion C|]. unfold equal_regressor_unstacked. rewrite L.
  assert (LB : List.length (b_active b) = n) by (apply R; left; auto).
  destruct (equal_rest xs t' (b2 :: t) C' n [b] (Some (first_cells b, b_active b)))
      as (acc & -> & (cum & cw & -> & SC & SW')).
  { intros x X. apply R. right. auto. }
  { eexists. eexists. split; [reflexivity|]. split; [|apply first_bits; auto].
    pose proof (first_total b n B LB V) as T. rewrite W in T. specialize (T ltac:(discriminate)).
    destruct T as (_ & T). destruct (first_cells_eq b W) as (L1 & L2). split; [congruence|]. intros i I.
    specialize (T i I). rewrite nth_map with (d := 0) in T by congruence. rewrite L2 by congruence.
    destruct (nth i (b_active b) 0 =? 0); auto. destruct T as [T|(q & T & Q1 & Q2)]; [destruct T; discriminate|].
    right. eexists. split; [reflexivity|]. injection T as T. subst q.
    split; [rewrite <- Q1; ring|]. intros Z. apply Q2. rewrite Z. ring. }
  cbn [fst]. unfold quotient. destruct SC as (LC & SC). destruct SW' as (LW & SW').
  rewrite same_length_true by (rewrite map_length; congruence).
  cbn [negb]. eexists. split; [reflexivity|]. split; [rewrite zip_length; rewrite ?map_length; congruence|].
  intros i I Z. rewrite zip_nth with (a := NaN) (b := NaN) by (rewrite ?map_length; congruence).
  destruct (SC i I) as [(-> & _)|(q & _ & Q1 & Q2)]; auto. exfalso. apply Q2. rewrite Q1. auto.
Qed.

(** A first rule that predicts 0 forbids any other rule. *)
Lemma equal_first_zero shared rules xs b b2 t n :
  collected (casts_one regression_number xs) rules (b :: b2 :: t) -> rows n (b :: b2 :: t) -> (b_value b == 0)%Q ->
  (exists i, (i < n)%nat /\ active i b) ->
  fst (equal_regressor_unstacked shared rules xs) = Err EType.
Proof.
  intros C R V (i & I & A). destruct (equal_start xs rules b (b2 :: t) C) as (B & W & t' & C' & L).
  destruct rules as [|r rules]; [inversion C|]. unfold equal_regressor_unstacked. rewrite L.
  assert (LB : List.length (b_active b) = n) by (apply R; left; auto).
  assert (LB2 : List.length (b_active b2) = n) by (apply R; right; left; auto).
  assert (Y : exists acc, equal_loop xs t' (Some (first_cells b, b_active b)) = (Err EType, acc)).
  { clear L C. remember (b2 :: t) as bs eqn:X. induction C' as [|q u bs' Cq _ IH|q u b' bs' Cq _ _]; [discriminate| |].
    - cbn [equal_loop]. rewrite equal_ignored; auto.
    - injection X as -> ->. cbn [equal_loop]. inversion Cq as [|p v (F & P & K & Bv & Vn)]; subst. cbn [b_active] in *.
      unfold equal_step. rewrite (usable_working xs q v); auto. rewrite prediction_attr in P. rewrite P.
      cbn [rbind regression_number number times_prediction]. unfold accumulate.
      destruct (first_cells_eq b W) as (L1 & L2).
      rewrite broadcasts_true, same_length_true by (rewrite map_length; congruence). cbn [negb].
      replace (existsb (fun x => neqb x (Fin 0)) (first_cells b)) with true; [eauto|].
      symmetry. apply existsb_exists. exists (nth i (first_cells b) NaN). split; [apply nth_In; congruence|].
      rewrite L2 by congruence. unfold active in A. rewrite A. cbn [Z.eqb neqb]. apply Qeq_bool_iff. rewrite V. ring. }
  destruct Y as (acc & ->). auto.
Qed.

(** No rule has a vector. *)
Lemma equal_nobody shared rules xs : collected (casts_one regression_number xs) rules [] -> rules <> [] ->
  equal_regressor_unstacked shared rules xs = (Err EValue, rules).
Proof.
  intros C N. unfold equal_regressor_unstacked. destruct rules; [congruence|]. rewrite (equal_none xs (r :: rules)); auto.
Qed.

(** ** The rules afterwards *)

Lemma equal_keeps shared rules xs : shared = false \/ xs <> None -> snd (equal_regressor_unstacked shared rules xs) = rules.
Proof.
  intros H. unfold equal_regressor_unstacked. destruct rules as [|r t]; auto.
  destruct (equal_loop xs (r :: t) None) as (o & [(cum & count)|]); auto. cbn [snd].
  destruct H as [->|H]; auto. destruct xs; [|congruence]. rewrite andb_false_r. auto.
Qed.


(** Predictions without stacked activations when some activations have one
    point only: numpy repeats it. *)
From Coq Require Import List ZArith QArith Bool String Ascii Lia Lqa.
From Coq Require Import List.
From Verif Require Import Base Num Arith CondModel CondSpec CondBase ThrModel ThrProofs MetModel MetSpec MetReg MetClass RuleModel RuleSpec
  RuleProofs RuleValues RuleEval RuleMisc PredModel PredSpec PredReg PredEqual PredStack PredVote PredMode PredMisc.
Import ListNotations.
Open Scope string_scope.
Open Scope list_scope.
Open Scope Z_scope.

(** ** One point *)

Lemma one_point {A} (v : list A) : List.length v = 1%nat -> exists a, v = [a].
Proof. destruct v as [|a [|b t]]; try discriminate. eauto. Qed.

Lemma broadcasts_one {A B} (u : list A) (x : B) : broadcasts u [x] = true.
Proof. unfold broadcasts. cbn. apply orb_true_r. Qed.

Lemma accumulate_one cum x c : accumulate cum (repeat x (List.length cum)) = Ok c -> accumulate cum [x] = Ok c.
Proof.
  unfold accumulate. rewrite broadcasts_one, broadcasts_true by (rewrite repeat_length; auto). cbn [negb].
  rewrite repeated_same by (rewrite repeat_length; auto). cbn [repeated_to].
  destruct (existsb _ cum); auto. destruct (same_length _ _); discriminate.
Qed.

Lemma nth_repeat_in {A} (a d : A) n i : (i < n)%nat -> nth i (repeat a n) d = a.
Proof. revert i. induction n as [|n IH]; intros i I; [lia|]. destruct i as [|i]; cbn [repeat nth]; auto. apply IH. lia. Qed.

Lemma spread_same {A} n (b : ballot A) : List.length (b_active b) = n -> spread n b = b.
Proof.
  destruct b as [w p v]. unfold spread. cbn [b_active b_weight b_value]. intros <-. destruct v as [|a [|c t]]; auto.
Qed.

Lemma spread_all {A} n (bs : list (ballot A)) : rows n bs -> map (spread n) bs = bs.
Proof.
  intros R. induction bs as [|b t IH]; auto. cbn [map]. rewrite spread_same, IH; auto.
  - intros c C. apply R. right. auto.
  - apply R. left. auto.
Qed.

Lemma repeat_bits a n : bits [a] -> bits (repeat a n).
Proof.
  unfold bits. rewrite !Forall_forall. intros B x X. apply repeat_spec in X. subst. apply B. left. auto.
Qed.

(** ** Regression *)

Lemma equal_next_one xs r b n bs acc : casts_one regression_number xs r (Some b) -> List.length (b_active b) = 1%nat ->
  tallied n bs acc -> exists acc', equal_step xs r acc = (Ok tt, acc') /\ tallied n (bs ++ [spread n b]) acc'.
Proof.
  intros C N (cum & count & -> & SC & SW). inversion C as [|p v (F & P & K & B & V)]; subst. cbn [b_active] in *.
  apply one_point in N as (a & ->).
  unfold equal_step. rewrite (usable_working xs r [a]); auto. rewrite prediction_attr in P. rewrite P.
  cbn [rbind regression_number number times_prediction map].
  assert (B' : bits (repeat a n)) by (apply repeat_bits; auto).
  destruct (accumulate_ok n bs (mkBallot 1 p (repeat a n)) cum (repeat (nmul (numz a) (Fin p)) n)) as (cum' & A & SC'); auto.
  { split; [rewrite repeat_length; auto|]. intros i Hi. rewrite nth_repeat_in by auto. cbn [nmul numz].
    eexists. split; [reflexivity|]. rewrite total_one by auto. cbn [b_active b_weight b_value]. rewrite nth_repeat_in by auto. ring. }
  rewrite (accumulate_one cum _ cum') by (destruct SC as (-> & _); auto). rewrite broadcasts_one. cbn [negb repeated_to].
  destruct SW as (LW & SW). rewrite LW.
  eexists. split; [reflexivity|]. exists cum'. eexists. split; [reflexivity|]. split; auto.
  split; [rewrite zip_length; rewrite ?repeat_length; auto|].
  intros i Hi. rewrite zip_nth with (a := 0) (b := 0) by (rewrite ?repeat_length; congruence).
  apply (count_next i bs (mkBallot 1%Q p (repeat a n))); auto.
Qed.

Lemma equal_rest_one xs rules bs : collected (casts_one regression_number xs) rules bs ->
  forall n bs0 acc, (forall c, In c bs -> List.length (b_active c) = n \/ List.length (b_active c) = 1%nat) -> tallied n bs0 acc ->
  exists acc', equal_loop xs rules acc = (Ok tt, acc') /\ tallied n (bs0 ++ map (spread n) bs) acc'.
Proof.
  induction 1 as [|r t bs C _ IH|r t b bs C _ IH]; intros n bs0 acc R S0.
  - exists acc. rewrite app_nil_r. auto.
  - cbn [equal_loop]. rewrite equal_ignored; auto.
  - cbn [equal_loop]. assert (X : exists acc', equal_step xs r acc = (Ok tt, acc') /\ tallied n (bs0 ++ [spread n b]) acc').
    { destruct (R b) as [L|L]; [left; auto| |].
      - rewrite (spread_same n b) by auto. apply equal_next; auto.
      - apply equal_next_one; auto. }
    destruct X as (acc' & -> & S1). cbn [map].
    replace (bs0 ++ spread n b :: map (spread n) bs) with ((bs0 ++ [spread n b]) ++ map (spread n) bs) by (rewrite <- app_assoc; auto).
    apply IH; auto. intros b' B'. apply R. right. auto.
Qed.

Lemma spread_weight {A} n (b : ballot A) : b_weight (spread n b) = b_weight b.
Proof. auto. Qed.

Lemma spread_bits {A} n (b : ballot A) : bits (b_active b) -> bits (b_active (spread n b)).
Proof. unfold spread. cbn [b_active]. destruct (b_active b) as [|a [|c t]]; auto. apply repeat_bits. Qed.

Lemma equal_unstacked_one shared rules xs bs n :
  collected (casts_one regression_number xs) rules bs -> rows_or_one n bs -> starts_well bs ->
  exists l, fst (equal_regressor_unstacked shared rules xs) = Ok l /\
    each_row n NaN l (fun i x =>
      (List.length (at_row i (map (spread n) bs)) < 256)%nat -> sum_counts i (map (spread n) bs) -> is_mean i (map (spread n) bs) x).
Proof.
  intros C R H. pose proof (one_weight _ _ _ _ C) as OW.
  assert (X : exists b t, bs = b :: t) by (destruct H as [(b & ->)|(b & t & -> & _)]; eauto).
  destruct X as (b & t & ->). destruct R as (LB & R). destruct t as [|b2 t].
  - rewrite (spread_all n [b]) by (intros x [<-|[]]; auto). apply equal_unstacked; auto. intros x [<-|[]]. auto.
  - destruct H as [(? & H)|(b' & ? & H & V)]; [discriminate|]. injection H as <- <-.
    destruct (equal_start xs rules b (b2 :: t) C) as (B & W & t' & C' & L).
    destruct rules as [|r rules]; [inversion C|]. unfold equal_regressor_unstacked. rewrite L.
    destruct (equal_rest_one xs t' (b2 :: t) C' n [b] (Some (first_cells b, b_active b)))
      as (acc & -> & (cum & cw & -> & SC & SW')).
    { intros x X. apply R. auto. }
    { eexists. eexists. split; [reflexivity|]. split; [|apply first_bits; auto].
      pose proof (first_total b n B LB V) as T. rewrite W in T. specialize (T ltac:(discriminate)).
      destruct T as (_ & T). destruct (first_cells_eq b W) as (L1 & L2). split; [congruence|]. intros i I.
      specialize (T i I). rewrite nth_map with (d := 0) in T by congruence. rewrite L2 by congruence.
      destruct (nth i (b_active b) 0 =? 0); auto. destruct T as [T|(q & T & Q1 & Q2)]; [destruct T; discriminate|].
      right. eexists. split; [reflexivity|]. injection T as T. subst q.
      split; [rewrite <- Q1; ring|]. intros Z. apply Q2. rewrite Z. ring. }
    replace ([b] ++ map (spread n) (b2 :: t)) with (map (spread n) (b :: b2 :: t)) in *
      by (cbn [map app]; rewrite (spread_same n b); auto).
    cbn [fst]. unfold quotient. destruct SC as (LC & SC). destruct SW' as (LW & SW').
    rewrite same_length_true by (rewrite map_length; congruence).
    cbn [negb]. eexists. split; [reflexivity|]. split; [rewrite zip_length; rewrite ?map_length; congruence|].
    intros i I Hn Z. rewrite zip_nth with (a := NaN) (b := NaN) by (rewrite ?map_length; congruence).
    rewrite nth_map with (d := 0) by congruence.
    apply mean_count; [apply (SC i I)|apply (SW' i I)| |exact Hn|].
    + intros x X. apply in_map_iff in X as (y & <- & Y). rewrite spread_weight. apply OW. auto.
    + destruct Z as [Z|Z]; auto. rewrite map_length in Z. discriminate.
Qed.

Lemma step_next_one E weights xs : NoDup (map fst weights) -> forall r b n bs acc,
  casts E weights regression_number xs r (Some b) -> List.length (b_active b) = 1%nat ->
  state n bs acc -> exists acc', weighted_step E weights xs r acc = Ok acc' /\ state n (bs ++ [spread n b]) acc'.
Proof.
  intros ND r b n bs acc C N (cum & cumw & -> & SC & SW). inversion C as [| |s w p v S I W (F & P & K & B & V)]; subst. cbn [b_active] in *.
  apply one_point in N as (a & ->).
  unfold weighted_step. rewrite (called_name E r s S). cbn [rbind]. rewrite (weight_found weights s w); auto. cbn [rbind].
  rewrite (usable_working xs r [a]); auto. cbn [rbind]. rewrite prediction_attr in P. rewrite P.
  cbn [rbind regression_number number times_prediction map].
  assert (B' : bits (repeat a n)) by (apply repeat_bits; auto).
  destruct (accumulate_ok n bs (mkBallot w p (repeat a n)) cum
      (repeat (nmul (nmul (numz a) (Fin p)) (Fin w)) n)) as (cum' & A & SC'); auto.
  { split; [rewrite repeat_length; auto|]. intros i Hi. rewrite nth_repeat_in by auto. cbn [nmul numz].
    eexists. split; [reflexivity|]. rewrite total_one by auto. cbn [b_active b_weight b_value]. rewrite nth_repeat_in by auto. ring. }
  rewrite (accumulate_one cum _ cum') by (destruct SC as (-> & _); auto). cbn [rbind]. rewrite broadcasts_one. cbn [negb repeated_to].
  destruct SW as (LW & SW). rewrite LW.
  eexists. split; [reflexivity|]. exists cum'. eexists. split; [reflexivity|]. split; auto.
  split; [rewrite zip_length; rewrite ?repeat_length; auto|].
  intros i Hi. rewrite zip_nth with (a := NaN) (b := NaN) by (rewrite ?repeat_length; congruence).
  rewrite nth_repeat_in by auto. destruct (SW i Hi) as (q & -> & Q). cbn [nadd nmul numz].
  eexists. split; [reflexivity|]. unfold spread. cbn [b_active b_weight b_value].
  rewrite weight_app, weight_one by auto. cbn [b_active b_weight b_value]. rewrite nth_repeat_in by auto. rewrite Q. ring.
Qed.

Lemma loop_next_one E weights xs rules bs : NoDup (map fst weights) -> collected (casts E weights regression_number xs) rules bs ->
  forall n bs0 acc, (forall c, In c bs -> List.length (b_active c) = n \/ List.length (b_active c) = 1%nat) -> state n bs0 acc ->
  exists acc', weighted_loop E weights xs rules acc = Ok acc' /\ state n (bs0 ++ map (spread n) bs) acc'.
Proof.
  intros ND. induction 1 as [|r t bs C _ IH|r t b bs C _ IH]; intros n bs0 acc R S0.
  - exists acc. rewrite app_nil_r. auto.
  - cbn [weighted_loop]. rewrite step_ignored; auto. cbn [rbind]. auto.
  - cbn [weighted_loop]. assert (X : exists acc', weighted_step E weights xs r acc = Ok acc' /\ state n (bs0 ++ [spread n b]) acc').
    { destruct (R b) as [L|L]; [left; auto| |].
      - rewrite (spread_same n b) by auto. apply step_next; auto.
      - apply step_next_one; auto. }
    destruct X as (acc' & -> & S1). cbn [map rbind].
    replace (bs0 ++ spread n b :: map (spread n) bs) with ((bs0 ++ [spread n b]) ++ map (spread n) bs) by (rewrite <- app_assoc; auto).
    apply IH; auto. intros b' B'. apply R. right. auto.
Qed.

Lemma loop_first_one E weights xs (ND : NoDup (map fst weights)) rules b bs : collected (casts E weights regression_number xs) rules (b :: bs) ->
  bits (b_active b) /\
  exists t cum cumw, collected (casts E weights regression_number xs) t bs /\
    weighted_loop E weights xs rules None = weighted_loop E weights xs t (Some (cum, cumw)) /\
    cum = map (fun a => if a =? 0 then NaN else Fin (b_value b * inject_Z a * b_weight b)) (b_active b) /\
    each_row (List.length (b_active b)) NaN cumw (fun i => is_weight i [b]).
Proof.
  intros C. remember (b :: bs) as all eqn:X. induction C as [|r t bs' C C' IH|r t b' bs' C C' IH]; [discriminate| |].
  - subst. cbn [weighted_loop]. rewrite step_ignored; auto.
  - injection X as -> ->. destruct (step_first E weights xs ND r b _ C eq_refl) as (B & cum & cumw & S1 & S2 & S3).
    split; auto. exists t, cum, cumw. cbn [weighted_loop]. rewrite S1. auto.
Qed.

Lemma weighted_unstacked_one E rules weights xs bs n :
  NoDup (map fst weights) -> collected (casts E weights regression_number xs) rules bs -> rows_or_one n bs -> starts_well bs ->
  exists l, weighted_regressor_unstacked E rules weights xs = Ok l /\
    each_row n NaN l (fun i x =>
      weighs i (map (spread n) bs) -> sum_counts i (map (spread n) bs) -> is_mean i (map (spread n) bs) x).
Proof.
  intros N C R H. assert (X : exists b t, bs = b :: t) by (destruct H as [(b & ->)|(b & t & -> & _)]; eauto).
  destruct X as (b & t & ->). destruct R as (LB & R). destruct t as [|b2 t].
  - rewrite (spread_all n [b]) by (intros x [<-|[]]; auto). apply weighted_unstacked; auto. intros x [<-|[]]. auto.
  - destruct H as [(? & H)|(b' & ? & H & V)]; [discriminate|]. injection H as <- <-.
    unfold weighted_regressor_unstacked.
    destruct (loop_first_one E weights xs N rules b (b2 :: t) C) as (B & t' & cum & cumw & C' & L & -> & SW).
    destruct rules as [|r rules]; [inversion C|]. rewrite L. rewrite LB in SW.
    destruct (collected_in _ _ _ C b) as (r' & _ & Cb); [left; auto|]. apply vote_weight in Cb.
    destruct (loop_next_one E weights xs t' (b2 :: t) N C' n [b] (Some (map (fun a => if a =? 0 then NaN else Fin (b_value b * inject_Z a * b_weight b)) (b_active b), cumw)))
      as (acc & -> & (cum & cw & -> & SC & SW')).
    { intros x X. apply R. auto. }
    { eexists. eexists. split; [reflexivity|]. split; auto. apply first_total; auto. }
    replace ([b] ++ map (spread n) (b2 :: t)) with (map (spread n) (b :: b2 :: t)) in *
      by (cbn [map app]; rewrite (spread_same n b); auto).
    cbn [rbind]. unfold quotient. destruct SC as (LC & SC). destruct SW' as (LW & SW'). rewrite same_length_true by congruence.
    cbn [negb]. eexists. split; [reflexivity|]. split; [rewrite zip_length; congruence|].
    intros i I W Z. rewrite zip_nth with (a := NaN) (b := NaN) by congruence.
    apply mean_of; auto. destruct Z as [Z|Z]; auto. rewrite map_length in Z. discriminate.
Qed.

(** ** Lengths that do not combine *)

Lemma broadcasts_not {A B} (u : list A) (v : list B) : List.length u <> List.length v -> List.length v <> 1%nat -> broadcasts u v = false.
Proof.
  intros H1 H2. unfold broadcasts. apply orb_false_iff. split.
  - unfold same_length. apply Nat.eqb_neq. auto.
  - apply Nat.eqb_neq. auto.
Qed.

Lemma accumulate_not cum v : List.length cum <> List.length v -> List.length v <> 1%nat -> accumulate cum v = Err EValue.
Proof. intros H1 H2. unfold accumulate. rewrite broadcasts_not by auto. auto. Qed.

Lemma equal_next_not xs r b n bs acc : casts_one regression_number xs r (Some b) -> List.length (b_active b) <> n ->
  List.length (b_active b) <> 1%nat -> tallied n bs acc -> fst (equal_step xs r acc) = Err EValue.
Proof.
  intros C N1 N2 (cum & count & -> & (LC & _) & _). inversion C as [|p v (F & P & K & B & V)]; subst. cbn [b_active] in *.
  unfold equal_step. rewrite (usable_working xs r v); auto. rewrite prediction_attr in P. rewrite P.
  cbn [rbind regression_number number times_prediction]. rewrite accumulate_not; auto; rewrite map_length; congruence.
Qed.

Lemma step_next_not E weights xs : NoDup (map fst weights) -> forall r b n bs acc,
  casts E weights regression_number xs r (Some b) -> List.length (b_active b) <> n ->
  List.length (b_active b) <> 1%nat -> state n bs acc -> weighted_step E weights xs r acc = Err EValue.
Proof.
  intros ND r b n bs acc C N1 N2 (cum & cumw & -> & (LC & _) & _). inversion C as [| |s w p v S I W (F & P & K & B & V)]; subst. cbn [b_active] in *.
  unfold weighted_step. rewrite (called_name E r s S). cbn [rbind]. rewrite (weight_found weights s w); auto. cbn [rbind].
  rewrite (usable_working xs r v); auto. cbn [rbind]. rewrite prediction_attr in P. rewrite P.
  cbn [rbind regression_number number times_prediction]. rewrite accumulate_not; auto; rewrite !map_length; congruence.
Qed.

Lemma equal_rest_not xs rules bs : collected (casts_one regression_number xs) rules bs ->
  forall n bs0 acc u b v, bs = u ++ b :: v ->
  (forall c, In c u -> List.length (b_active c) = n \/ List.length (b_active c) = 1%nat) ->
  List.length (b_active b) <> n -> List.length (b_active b) <> 1%nat -> tallied n bs0 acc ->
  fst (equal_loop xs rules acc) = Err EValue.
Proof.
  induction 1 as [|r t bs C _ IH|r t d bs C _ IH]; intros n bs0 acc u b v X R N1 N2 S0.
  - destruct u; discriminate.
  - cbn [equal_loop]. rewrite equal_ignored; auto. eapply IH; eauto.
  - cbn [equal_loop]. destruct u as [|c u]; cbn [app] in X; injection X as -> ->.
    + pose proof (equal_next_not xs r b n bs0 acc C N1 N2 S0) as Y. destruct (equal_step xs r acc) as (o & acc'). cbn [fst] in Y.
      rewrite Y. auto.
    + assert (Y : exists acc', equal_step xs r acc = (Ok tt, acc') /\ tallied n (bs0 ++ [spread n c]) acc').
      { destruct (R c) as [L|L]; [left; auto| |].
        - rewrite (spread_same n c) by auto. apply equal_next; auto.
        - apply equal_next_one; auto. }
      destruct Y as (acc' & -> & S1). apply (IH n (bs0 ++ [spread n c]) acc' u b v); auto. intros x X. apply R. right. auto.
Qed.

Lemma loop_next_not E weights xs rules bs : NoDup (map fst weights) -> collected (casts E weights regression_number xs) rules bs ->
  forall n bs0 acc u b v, bs = u ++ b :: v ->
  (forall c, In c u -> List.length (b_active c) = n \/ List.length (b_active c) = 1%nat) ->
  List.length (b_active b) <> n -> List.length (b_active b) <> 1%nat -> state n bs0 acc ->
  weighted_loop E weights xs rules acc = Err EValue.
Proof.
  intros ND. induction 1 as [|r t bs C _ IH|r t d bs C _ IH]; intros n bs0 acc u b v X R N1 N2 S0.
  - destruct u; discriminate.
  - cbn [weighted_loop]. rewrite step_ignored; auto. cbn [rbind]. eapply IH; eauto.
  - cbn [weighted_loop]. destruct u as [|c u]; cbn [app] in X; injection X as -> ->.
    + rewrite (step_next_not E weights xs ND r b n bs0 acc C N1 N2 S0). auto.
    + assert (Y : exists acc', weighted_step E weights xs r acc = Ok acc' /\ state n (bs0 ++ [spread n c]) acc').
      { destruct (R c) as [L|L]; [left; auto| |].
        - rewrite (spread_same n c) by auto. apply step_next; auto.
        - apply step_next_one; auto. }
      destruct Y as (acc' & -> & S1). cbn [rbind].
      apply (IH n (bs0 ++ [spread n c]) acc' u b v); auto. intros x X. apply R. right. auto.
Qed.

(** ** Votes *)

Lemma map_repeated {A B} (f : A -> B) a n : map f (repeat a n) = repeat (f a) n.
Proof. induction n as [|n IH]; auto. cbn. rewrite IH. auto. Qed.

Lemma vote_spread c a w n preds : (forall d u, In (d, u) preds -> List.length u = n) ->
  (exists d u, In (d, u) preds /\ same_class c d) ->
  vote c (map (fun a => nmul (numz a) (Fin w)) [a]) preds = vote c (map (fun a => nmul (numz a) (Fin w)) (repeat a n)) preds.
Proof.
  intros L X. cbn [map]. rewrite map_repeated. induction preds as [|[d u] t IH]; [destruct X as (d & u & [] & _)|].
  assert (LU : List.length u = n) by (apply (L d); left; auto).
  cbn [vote]. rewrite broadcasts_one, broadcasts_true by (rewrite repeat_length; auto). cbn [negb repeated_to].
  rewrite repeated_same by (rewrite repeat_length; auto). rewrite LU. destruct (label_eqb c d) eqn:Y; auto.
  apply label_eqb_false in Y.
  assert (T : exists d u, In (d, u) t /\ same_class c d).
  { destruct X as (d' & u' & [H|H] & S); [injection H as <- <-; contradiction|eauto]. }
  rewrite IH; auto; [|intros; eapply L; right; eauto].
  destruct t as [|p t]; [destruct T as (? & ? & [] & _)|]. rewrite !andb_false_r. auto.
Qed.

Lemma vote_new c v d u t : (forall d' u', In (d', u') ((d, u) :: t) -> List.length u' <> List.length v /\ ~ same_class c d') ->
  vote c v ((d, u) :: t) = Err EValue.
Proof.
  revert d u. induction t as [|[d' u'] t IH]; intros d u H; destruct (H d u) as (L & N); try (left; reflexivity).
  - cbn [vote]. destruct (broadcasts u v); auto. cbn [negb].
    replace (label_eqb c d) with false by (symmetry; apply label_eqb_false; auto).
    unfold same_length. rewrite (proj2 (Nat.eqb_neq _ _) L). auto.
  - cbn [vote]. cbn [vote] in IH. destruct (broadcasts u v); auto. cbn [negb].
    replace (label_eqb c d) with false by (symmetry; apply label_eqb_false; auto).
    rewrite andb_false_r. rewrite IH; auto. intros a b X. apply H. right. auto.
Qed.

Lemma spread_idle {A} n (b : ballot A) : (forall i, ~ active i b) -> forall i, ~ active i (spread n b).
Proof.
  unfold spread, active. cbn [b_active]. intros N i. destruct (b_active b) as [|a [|c t]] eqn:X; try (apply (N i)).
  intros Y. destruct (Nat.lt_ge_cases i n).
  - rewrite nth_repeat_in in Y by auto. apply (N O). auto.
  - rewrite nth_overflow in Y by (rewrite repeat_length; auto). discriminate.
Qed.

Lemma vote_counts_one E weights xs (ND : NoDup (map fst weights)) r b n bs preds :
  casts E weights class_object xs r (Some b) -> List.length (b_active b) = 1%nat ->
  comparable (b_value b) -> tabled n bs preds -> (exists d i, In d bs /\ (i < n)%nat /\ active i d /\ same_class (b_value b) (b_value d)) ->
  exists preds', vote_step E weights xs r preds = Ok preds' /\ tabled n (bs ++ [spread n b]) preds'.
Proof.
  intros C L CM T J. inversion C as [| |s w p v S I W (F & P & K & B & V)]; subst. cbn [b_active b_value] in *.
  apply one_point in L as (a & ->).
  unfold vote_step. rewrite (called_name E r s S). cbn [rbind]. rewrite (weight_found weights s w); auto. cbn [rbind].
  rewrite (vote_vector xs r [a] K B). cbn [rbind].
  destruct (nones (new_activation [a]) =? 0) eqn:Z.
  - exists preds. split; auto. apply tabled_idle; auto. apply spread_idle. unfold active. cbn [b_active]. apply nones_zero; auto.
  - rewrite prediction_attr in P. rewrite P. cbn [rbind].
    replace (class_of (class_object p)) with (Ok p) by (destruct p; auto). cbn [rbind].
    rewrite (vote_spread p a w n).
    + apply (tabled_next n (mkBallot w p (repeat a n)) bs preds); auto.
      * apply repeat_bits. auto.
      * apply repeat_length.
    + intros d u D. apply (proj1 (proj2 T)) in D. tauto.
    + destruct J as (d & i & D & Hi & A & SC). destruct (proj1 (proj2 (proj2 T)) d i D Hi A) as (c & u & C1 & C2).
      exists c, u. split; auto. eapply same_class_trans; [exact SC|]. apply same_class_sym. auto.
Qed.

Lemma spread_active {A} n (b : ballot A) i : List.length (b_active b) = n \/ List.length (b_active b) = 1%nat -> (0 < n)%nat -> active i b ->
  exists j, (j < n)%nat /\ active j (spread n b).
Proof.
  intros [L|L] N AC.
  - rewrite spread_same by auto. exists i. split; auto. unfold active in AC. destruct (Nat.lt_ge_cases i n); auto.
    rewrite nth_overflow in AC by lia. discriminate.
  - unfold active, spread in *. cbn [b_active]. apply one_point in L as (a & L). rewrite L in *. exists O. split; auto.
    rewrite nth_repeat_in by auto. destruct i as [|[|i]]; cbn in AC; auto; discriminate.
Qed.

Lemma vote_loop_one E weights xs rules bs : NoDup (map fst weights) -> collected (casts E weights class_object xs) rules bs ->
  forall n pre preds, (0 < n)%nat -> joins n (pre ++ bs) -> (forall b, In b bs -> comparable (b_value b)) -> all_present xs rules ->
  tabled n (map (spread n) pre) preds ->
  exists preds', vote_loop E weights xs rules preds = Ok preds' /\ tabled n (map (spread n) (pre ++ bs)) preds'.
Proof.
  intros ND. induction 1 as [|r t bs C _ IH|r t b bs C _ IH]; intros n pre preds N J CM AP T; cbn [vote_loop].
  - exists preds. rewrite app_nil_r. auto.
  - rewrite vote_ignored; auto; [|apply AP; left; auto]. cbn [rbind]. apply IH; auto. intros x X. apply AP. right. auto.
  - assert (X : exists p', vote_step E weights xs r preds = Ok p' /\ tabled n (map (spread n) (pre ++ [b])) p').
    { rewrite map_app. cbn [map]. assert (CB : comparable (b_value b)) by (apply CM; left; auto).
      destruct (J pre b bs eq_refl) as [L|(L & d & i & D & A & S)].
      - rewrite (spread_same n b) by auto. apply vote_counts; auto.
      - apply vote_counts_one; auto.
        assert (LD : List.length (b_active d) = n \/ List.length (b_active d) = 1%nat).
        { apply in_split in D as (u & v & ->). destruct (J u d (v ++ b :: bs)) as [X|(X & _)]; auto. rewrite <- app_assoc. auto. }
        destruct (spread_active n d i LD N A) as (j & Hj & AJ). exists (spread n d), j. split; [apply in_map; auto|auto]. }
    destruct X as (p' & -> & T'). cbn [rbind].
    replace (pre ++ b :: bs) with ((pre ++ [b]) ++ bs) by (rewrite <- app_assoc; auto).
    apply IH; auto.
    + rewrite <- app_assoc. auto.
    + intros x X. apply CM. right. auto.
    + intros x X. apply AP. right. auto.
Qed.

Lemma spread_fair n bs : fair bs -> fair (map (spread n) bs).
Proof. intros F b B. apply in_map_iff in B as (c & <- & C). apply (F c C). Qed.

Lemma weighted_votes_one E rules weights xs bs n :
  NoDup (map fst weights) -> all_present xs rules -> collected (casts E weights class_object xs) rules bs -> joins n bs -> fair bs ->
  somebody n (map (spread n) bs) ->
  exists l, weighted_classificator_unstacked E rules weights xs = Ok l /\
    each_row n (LNum NaN) l (fun i x => is_verdict i (map (spread n) bs) x).
Proof.
  intros N AP C J F SB.
  assert (NZ : (0 < n)%nat) by (destruct SB as (b & i & _ & I & _); lia).
  assert (RN : rules <> []).
  { intros ->. inversion C. subst. destruct SB as (b & i & [] & _). }
  destruct (vote_loop_one E weights xs rules bs N C n [] []) as (preds & L & T); auto.
  { intros b B. apply F. auto. }
  { apply tabled_nil. }
  cbn [app] in T. pose proof (tabled_nonempty n _ preds T SB) as PN.
  unfold weighted_classificator_unstacked. destruct rules as [|r rules]; [congruence|]. rewrite L. cbn [rbind].
  destruct preds as [|[c u] t] eqn:P; [congruence|]. rewrite <- P in *.
  assert (LU : List.length u = n) by (destruct T as (_ & T & _); apply (T c u); rewrite P; left; auto). rewrite LU.
  eexists. split; [reflexivity|]. split; [rewrite map_length, seq_length; auto|].
  intros i I. rewrite nth_map with (d := O) by (rewrite seq_length; auto). rewrite seq_nth by auto. cbn [Nat.add].
  apply (winner_ok n _ preds i); auto. apply spread_fair. auto.
Qed.

(** A new class with another number of rows *)
Lemma vote_loop_new E weights xs rules bs : NoDup (map fst weights) -> collected (casts E weights class_object xs) rules bs ->
  forall n pre preds u b v, (0 < n)%nat -> bs = u ++ b :: v -> joins n (pre ++ u) -> (forall c, In c bs -> comparable (b_value c)) -> all_present xs rules ->
  tabled n (map (spread n) pre) preds -> (exists d i, In d (pre ++ u) /\ active i d) ->
  List.length (b_active b) <> n -> (exists i, active i b) -> (forall d, In d (pre ++ u) -> ~ same_class (b_value b) (b_value d)) ->
  vote_loop E weights xs rules preds = Err EValue.
Proof.
  intros ND. induction 1 as [|r t bs C _ IH|r t c bs C _ IH]; intros n pre preds u b v N X J CM AP T SB LB AB NC; cbn [vote_loop].
  - destruct u; discriminate.
  - rewrite vote_ignored; auto; [|apply AP; left; auto]. cbn [rbind]. eapply IH; eauto. intros x Y. apply AP. right. auto.
  - destruct u as [|d u]; cbn [app] in X; injection X as -> ->.
    + rewrite app_nil_r in *.
      inversion C as [| |s w p l S I W (F & P & K & B & V)]; subst. cbn [b_active b_value] in *.
      assert (Y : vote_step E weights xs r preds = Err EValue).
      { unfold vote_step. rewrite (called_name E r s S). cbn [rbind]. rewrite (weight_found weights s w); auto. cbn [rbind].
        rewrite (vote_vector xs r l K B). cbn [rbind]. destruct l as [|a l]; [congruence|].
        replace (nones (new_activation (a :: l)) =? 0) with false.
        2:{ symmetry. apply not_true_is_false. intros Z. pose proof (proj1 (nones_zero _ B) Z) as Z'. destruct AB as (i & AB). apply (Z' i). auto. }
        rewrite prediction_attr in P. rewrite P. cbn [rbind].
        replace (class_of (class_object p)) with (Ok p) by (destruct p; auto). cbn [rbind].
        destruct preds as [|[c u] t'].
        - exfalso. destruct SB as (d & i & D & A).
          assert (LD : List.length (b_active d) = n \/ List.length (b_active d) = 1%nat).
          { apply in_split in D as (x & y & ->). destruct (J x d y) as [X|(X & _)]; auto. }
          destruct (spread_active n d i LD N A) as (j & Hj & AJ).
          destruct (proj1 (proj2 (proj2 T)) (spread n d) j (in_map _ _ _ D) Hj AJ) as (? & ? & [] & _).
        - apply vote_new. intros c' u' Y. split.
          + apply (proj1 (proj2 T)) in Y. rewrite map_length. destruct Y as (_ & -> & _). auto.
          + intros SC. apply (proj2 (proj2 (proj2 T))) in Y as (d & D & S'). apply in_map_iff in D as (d' & <- & D).
            apply (NC d' D). eapply same_class_trans; [exact SC|exact S']. }
      rewrite Y. auto.
    + assert (X : exists p', vote_step E weights xs r preds = Ok p' /\ tabled n (map (spread n) (pre ++ [d])) p').
      { rewrite map_app. cbn [map]. assert (CB : comparable (b_value d)) by (apply CM; left; auto).
        destruct (J pre d u eq_refl) as [L|(L & d' & i & D & A & S)].
        - rewrite (spread_same n d) by auto. apply vote_counts; auto.
        - apply vote_counts_one; auto.
          assert (LD : List.length (b_active d') = n \/ List.length (b_active d') = 1%nat).
          { apply in_split in D as (x & y & ->). destruct (J x d' (y ++ d :: u)) as [X|(X & _)]; auto. rewrite <- app_assoc. auto. }
          destruct (spread_active n d' i LD N A) as (j & Hj & AJ). exists (spread n d'), j. split; [apply in_map; auto|auto]. }
      destruct X as (p' & -> & T'). cbn [rbind].
      replace (pre ++ d :: u) with ((pre ++ [d]) ++ u) in * by (rewrite <- app_assoc; auto).
      eapply (IH n (pre ++ [d]) p' u b v); eauto.
      * intros x Y. apply CM. right. auto.
      * intros x Y. apply AP. right. auto.
Qed.

Lemma first_new C rules u b v : @collected label C rules (u ++ b :: v) -> rules <> [].
Proof. intros X ->. inversion X. destruct u; discriminate. Qed.

Lemma equal_classes_one E rules xs bs n :
  (forall r, In r rules -> exists s, called E r s) -> all_present xs rules -> collected (casts_one class_object xs) rules bs -> joins n bs ->
  (forall b, In b bs -> comparable (b_value b)) -> somebody n (map (spread n) bs) ->
  exists l, equal_classificator_unstacked E rules xs = Ok l /\
    each_row n (LNum NaN) l (fun i x => is_verdict i (map (spread n) bs) x).
Proof.
  intros NM AP C R CM SB. unfold equal_classificator_unstacked. destruct (names_listed E rules NM) as (names & -> & L). cbn [rbind].
  apply (weighted_votes_one E rules _ xs bs n); auto.
  - apply ones_nodup. constructor.
  - apply (one_as_casts E class_object xs rules bs); auto. intros r I. destruct (L r I) as (s & S & X). exists s. split; auto.
    apply ones_in. auto.
  - intros b B. split; [|auto]. destruct (one_weight _ _ _ _ C b B) as (-> & _). reflexivity.
Qed.

(** ** Predictions *)

Lemma spread_mean : forall E sf shared rules st xs bs n,
  unstacked sf st -> collected (casts_one regression_number xs) rules bs -> rows_or_one n bs -> starts_well bs ->
  exists l, fst (predict_rules E sf shared (Some KRegression) rules st xs None) = Ok (Numbers l) /\
    each_row n NaN l (fun i x =>
      (List.length (at_row i (map (spread n) bs)) < 256)%nat -> sum_counts i (map (spread n) bs) -> is_mean i (map (spread n) bs) x).
Proof.
  intros E sf shared rules st xs bs n U C R H. destruct (equal_unstacked_one shared rules xs bs n C R H) as (l & L & P). exists l. split; auto.
  rewrite route_unstacked; auto.
  - unfold predict_unstacked. destruct (equal_regressor_unstacked shared rules xs) as (o & rs). cbn [fst] in *. rewrite L. auto.
  - intros ->. inversion C; subst. destruct H as [(b & H)|(b & t & H & _)]; discriminate.
Qed.

Lemma spread_weighted_mean : forall E sf shared rules st xs ws bs n,
  unstacked sf st -> NoDup (map fst ws) -> collected (casts E ws regression_number xs) rules bs -> rows_or_one n bs -> starts_well bs ->
  exists l, fst (predict_rules E sf shared (Some KRegression) rules st xs (Some (WSeries ws))) = Ok (Numbers l) /\
    each_row n NaN l (fun i x =>
      weighs i (map (spread n) bs) -> sum_counts i (map (spread n) bs) -> is_mean i (map (spread n) bs) x).
Proof.
  intros E sf shared rules st xs ws bs n U N C R H. destruct (weighted_unstacked_one E rules ws xs bs n N C R H) as (l & L & P). exists l. split; auto.
  rewrite route_unstacked; auto.
  - unfold predict_unstacked. cbn [weights_of rbind fst]. rewrite L. auto.
  - intros ->. inversion C; subst. destruct H as [(b & H)|(b & t & H & _)]; discriminate.
Qed.

Lemma differ_mean : forall E sf shared rules st xs a u b v,
  unstacked sf st -> collected (casts_one regression_number xs) rules (a :: u ++ b :: v) -> ~ (b_value a == 0)%Q ->
  rows_or_one (List.length (b_active a)) (a :: u) ->
  List.length (b_active b) <> List.length (b_active a) -> List.length (b_active b) <> 1%nat ->
  fst (predict_rules E sf shared (Some KRegression) rules st xs None) = Err EValue.
Proof.
  intros E sf shared rules st xs a u b v U C V (_ & R) N1 N2. rewrite route_unstacked; auto; [|intros ->; inversion C].
  unfold predict_unstacked. destruct (equal_start xs rules a _ C) as (B & W & t' & C' & L).
  assert (X : fst (equal_regressor_unstacked shared rules xs) = Err EValue).
  { destruct rules as [|r rules]; [inversion C|]. unfold equal_regressor_unstacked. rewrite L.
    assert (Y : fst (equal_loop xs t' (Some (first_cells a, b_active a))) = Err EValue).
    { apply (equal_rest_not xs t' _ C' (List.length (b_active a)) [a] _ u b v); auto.
      eexists. eexists. split; [reflexivity|]. split; [|apply first_bits; auto].
      pose proof (first_total a _ B eq_refl V) as T. rewrite W in T. specialize (T ltac:(discriminate)).
      destruct T as (_ & T). destruct (first_cells_eq a W) as (L1 & L2). split; [congruence|]. intros i I.
      specialize (T i I). rewrite nth_map with (d := 0) in T by congruence. rewrite L2 by congruence.
      destruct (nth i (b_active a) 0 =? 0); auto. destruct T as [T|(q & T & Q1 & Q2)]; [destruct T; discriminate|].
      right. eexists. split; [reflexivity|]. injection T as T. subst q.
      split; [rewrite <- Q1; ring|]. intros Z. apply Q2. rewrite Z. ring. }
    destruct (equal_loop xs t' (Some (first_cells a, b_active a))) as (o & acc). cbn [fst] in Y. subst o. reflexivity. }
  destruct (equal_regressor_unstacked shared rules xs) as (o & rs). cbn [fst] in *. rewrite X. auto.
Qed.

Lemma differ_weighted_mean : forall E sf shared rules st xs ws a u b v,
  unstacked sf st -> NoDup (map fst ws) -> collected (casts E ws regression_number xs) rules (a :: u ++ b :: v) -> ~ (b_value a == 0)%Q ->
  rows_or_one (List.length (b_active a)) (a :: u) ->
  List.length (b_active b) <> List.length (b_active a) -> List.length (b_active b) <> 1%nat ->
  fst (predict_rules E sf shared (Some KRegression) rules st xs (Some (WSeries ws))) = Err EValue.
Proof.
  intros E sf shared rules st xs ws a u b v U ND C V (_ & R) N1 N2. rewrite route_unstacked; auto; [|intros ->; inversion C].
  unfold predict_unstacked. cbn [weights_of rbind fst]. unfold weighted_regressor_unstacked.
  destruct (loop_first_one E ws xs ND rules a _ C) as (B & t' & cum & cumw & C' & L & -> & SW).
  destruct rules as [|r rules]; [inversion C|]. rewrite L.
  destruct (collected_in _ _ _ C a) as (r' & _ & Cb); [left; auto|]. apply vote_weight in Cb.
  rewrite (loop_next_not E ws xs t' _ ND C' (List.length (b_active a)) [a] _ u b v); auto.
  eexists. eexists. split; [reflexivity|]. split; auto. apply first_total; auto.
Qed.

Lemma spread_vote : forall E sf shared rules st xs bs n,
  unstacked sf st -> (forall r, In r rules -> exists s, called E r s) -> all_present xs rules ->
  collected (casts_one class_object xs) rules bs -> joins n bs -> (forall b, In b bs -> comparable (b_value b)) ->
  somebody n (map (spread n) bs) ->
  exists l, fst (predict_rules E sf shared (Some KClassification) rules st xs None) = Ok (Outcomes l) /\
    each_row n Frame l (fun i x => exists c, x = Class c /\ is_verdict i (map (spread n) bs) c).
Proof.
  intros E sf shared rules st xs bs n U N A C R F S. destruct (equal_classes_one E rules xs bs n N A C R F S) as (l & L & P). exists (map Class l).
  split; [|apply each_class; auto]. rewrite route_unstacked; auto.
  - unfold predict_unstacked. cbn [fst]. rewrite L. auto.
  - intros ->. inversion C. subst. destruct S as (b & i & [] & _).
Qed.

Lemma spread_weighted_vote : forall E sf shared rules st xs ws bs n,
  unstacked sf st -> NoDup (map fst ws) -> all_present xs rules -> collected (casts E ws class_object xs) rules bs -> joins n bs ->
  fair bs -> somebody n (map (spread n) bs) ->
  exists l, fst (predict_rules E sf shared (Some KClassification) rules st xs (Some (WSeries ws))) = Ok (Outcomes l) /\
    each_row n Frame l (fun i x => exists c, x = Class c /\ is_verdict i (map (spread n) bs) c).
Proof.
  intros E sf shared rules st xs ws bs n U N A C R F S. destruct (weighted_votes_one E rules ws xs bs n N A C R F S) as (l & L & P). exists (map Class l).
  split; [|apply each_class; auto]. rewrite route_unstacked; auto.
  - unfold predict_unstacked. cbn [weights_of rbind fst]. rewrite L. auto.
  - intros ->. inversion C. subst. destruct S as (b & i & [] & _).
Qed.

Lemma new_class_weighted E rules ws xs u b v n : NoDup (map fst ws) -> all_present xs rules ->
  collected (casts E ws class_object xs) rules (u ++ b :: v) -> (forall c, In c (u ++ b :: v) -> comparable (b_value c)) ->
  (0 < n)%nat -> joins n u -> (exists d i, In d u /\ active i d) ->
  List.length (b_active b) <> n -> (exists i, active i b) -> (forall d, In d u -> ~ same_class (b_value b) (b_value d)) ->
  weighted_classificator_unstacked E rules ws xs = Err EValue.
Proof.
  intros ND AP C CM N J SB LB AB NC. unfold weighted_classificator_unstacked. pose proof (first_new _ _ _ _ _ C) as RN.
  destruct rules as [|r rules]; [congruence|].
  rewrite (vote_loop_new E ws xs (r :: rules) (u ++ b :: v) ND C n [] [] u b v); auto. apply tabled_nil.
Qed.

Lemma new_class_vote : forall E sf shared rules st xs u b v n,
  unstacked sf st -> (forall r, In r rules -> exists s, called E r s) -> all_present xs rules ->
  collected (casts_one class_object xs) rules (u ++ b :: v) -> (forall c, In c (u ++ b :: v) -> comparable (b_value c)) ->
  (0 < n)%nat -> joins n u -> (exists d i, In d u /\ active i d) ->
  List.length (b_active b) <> n -> (exists i, active i b) -> (forall d, In d u -> ~ same_class (b_value b) (b_value d)) ->
  fst (predict_rules E sf shared (Some KClassification) rules st xs None) = Err EValue.
Proof.
  intros E sf shared rules st xs u b v n U NM AP C CM N J SB LB AB NC. rewrite route_unstacked by (auto; eapply first_new; eauto).
  unfold predict_unstacked. cbn [fst]. unfold equal_classificator_unstacked. destruct (names_listed E rules NM) as (names & -> & L). cbn [rbind].
  rewrite (new_class_weighted E rules _ xs u b v n); auto.
  - apply ones_nodup. constructor.
  - apply (one_as_casts E class_object xs rules); auto. intros r I. destruct (L r I) as (s & S & X). exists s. split; auto.
    apply ones_in. auto.
Qed.

Lemma new_class_weighted_vote : forall E sf shared rules st xs ws u b v n,
  unstacked sf st -> NoDup (map fst ws) -> all_present xs rules ->
  collected (casts E ws class_object xs) rules (u ++ b :: v) -> (forall c, In c (u ++ b :: v) -> comparable (b_value c)) ->
  (0 < n)%nat -> joins n u -> (exists d i, In d u /\ active i d) ->
  List.length (b_active b) <> n -> (exists i, active i b) -> (forall d, In d u -> ~ same_class (b_value b) (b_value d)) ->
  fst (predict_rules E sf shared (Some KClassification) rules st xs (Some (WSeries ws))) = Err EValue.
Proof.
  intros E sf shared rules st xs ws u b v n U ND AP C CM N J SB LB AB NC. rewrite route_unstacked by (auto; eapply first_new; eauto).
  unfold predict_unstacked. cbn [weights_of rbind fst]. rewrite (new_class_weighted E rules ws xs u b v n); auto.
Qed.

(** Predictions of regression rules, without stacked activations. *)
From Coq Require Import List ZArith QArith Bool String Ascii Lia Lqa.
From Coq Require Import List.
From Verif Require Import Base Num Arith CondModel CondSpec CondBase ThrModel ThrProofs MetModel MetSpec RuleModel RuleSpec
  RuleProofs RuleValues RuleEval RuleMisc PredModel PredSpec.
Import ListNotations.
Open Scope string_scope.
Open Scope list_scope.
Open Scope Z_scope.

(** ** Names *)

Lemma show_bounds_ok repr fs : forall n, n = (List.length fs - 1)%nat -> fs <> [] ->
  show_bounds repr (map f_name fs) (map f_low fs) (map f_high fs) n =
  Ok (String.concat " AND " (map (printed repr) fs)).
Proof.
  induction fs as [|f t IH]; intros n N F; [congruence|]. clear F. cbn [map]. destruct t as [|g t].
  - cbn in N. subst n. reflexivity.
  - cbn [List.length Nat.sub] in N. subst n.
    replace (S (List.length t)) with (S (List.length (g :: t) - 1))%nat by (cbn; lia).
    cbn [show_bounds]. rewrite (IH _ eq_refl) by discriminate. cbn [rmap]. f_equal.
Qed.

Lemma called_name E r s : called E r s -> rule_name E r = Ok s.
Proof.
  intros (c & fs & C & (L1 & L2 & L3 & L4) & F & ->). unfold rule_name. rewrite C. unfold cond_str.
  rewrite L4, L2, L3. unfold clen. rewrite L4. apply show_bounds_ok; auto. rewrite map_length. auto.
Qed.

(** ** Weights *)

Lemma entries_none {A} s (ws : list (string * A)) : (forall w, ~ In (s, w) ws) -> entries s ws = [].
Proof.
  intros N. unfold entries. induction ws as [|[s' w] t IH]; auto. cbn [filter map fst]. destruct (str_eqb s s') eqn:E.
  - apply String.eqb_eq in E as ->. destruct (N w). left. auto.
  - apply IH. intros x X. apply (N x). right. auto.
Qed.

Lemma entries_one {A} s w (ws : list (string * A)) : NoDup (map fst ws) -> In (s, w) ws -> entries s ws = [w].
Proof.
  intros N I. unfold entries. induction ws as [|[s' w'] t IH]; [contradiction|]. cbn [map fst] in N. inversion N as [|? ? N1 N2].
  subst. cbn [filter fst]. destruct I as [I|I].
  - injection I as -> ->. unfold str_eqb. rewrite String.eqb_refl. cbn [map snd]. f_equal.
    apply (entries_none s t). intros x X. apply N1. apply (in_map fst) in X. auto.
  - destruct (str_eqb s s') eqn:E; auto. apply String.eqb_eq in E as ->. destruct N1. apply (in_map fst) in I. auto.
Qed.

Lemma entries_in {A} s (ws : list (string * A)) : entries s ws = [] -> forall w, ~ In (s, w) ws.
Proof.
  unfold entries. intros N w I. assert (X : In (s, w) (filter (fun e => str_eqb s (fst e)) ws)).
  { apply filter_In. split; auto. cbn. apply String.eqb_refl. }
  apply (in_map snd) in X. rewrite N in X. contradiction.
Qed.

Lemma neqb_zero w : neqb w (Fin 0) = true <-> same_num w (Fin 0).
Proof. destruct w; cbn; split; try discriminate; try tauto; apply Qeq_bool_iff. Qed.

Lemma weight_ignored ws s : NoDup (map fst ws) -> unweighted ws s -> weight_of ws s = Ok None.
Proof.
  intros N U. unfold weight_of. destruct (entries s ws) as [|w [|w' t]] eqn:E; auto.
  - assert (I : exists x, In (s, x) ws).
    { destruct (existsb (fun e => str_eqb s (fst e)) ws) eqn:X.
      - apply existsb_exists in X as ((s' & x) & X1 & X2). apply String.eqb_eq in X2. cbn in X2. subst. eauto.
      - unfold entries in E. assert (filter (fun e => str_eqb s (fst e)) ws = []) as F.
        { clear -X. induction ws as [|e t IH]; auto. cbn in *. apply orb_false_iff in X as (-> & X). auto. }
        rewrite F in E. discriminate. }
    destruct I as (x & I). rewrite (entries_one s x ws N I) in E. injection E as ->.
    destruct (U w I) as [->|Z]; auto. apply neqb_zero in Z. rewrite Z. auto.
  - exfalso. assert (I : exists x, In (s, x) ws).
    { destruct (existsb (fun e => str_eqb s (fst e)) ws) eqn:X.
      - apply existsb_exists in X as ((s' & x) & X1 & X2). apply String.eqb_eq in X2. cbn in X2. subst. eauto.
      - unfold entries in E. assert (filter (fun e => str_eqb s (fst e)) ws = []) as F.
        { clear -X. induction ws as [|e u IH]; auto. cbn in *. apply orb_false_iff in X as (-> & X). auto. }
        rewrite F in E. discriminate. }
    destruct I as (x & I). rewrite (entries_one s x ws N I) in E. discriminate.
Qed.

Lemma weight_found ws s w : NoDup (map fst ws) -> In (s, Fin w) ws -> ~ (w == 0)%Q -> weight_of ws s = Ok (Some (Fin w)).
Proof.
  intros N I Z. unfold weight_of. rewrite (entries_one s _ ws N I). cbn [neqb is_nan].
  destruct (Qeq_bool w 0) eqn:X; auto. apply Qeq_bool_iff in X. contradiction.
Qed.

(** ** Activations *)

Lemma usable_working xs r v : working r xs v -> v <> [] -> usable xs r = Ok (Some v).
Proof.
  intros W N. unfold usable. destruct xs as [t|].
  - destruct W as (c & C & V). unfold evaluate_activation. rewrite C, V. cbn. destruct v; congruence.
  - destruct W as (a & A & R). unfold activation_vector. rewrite A, R. apply raw_inv in R. destruct R as (_ & R).
    unfold alen. rewrite R. destruct v; [congruence|]. auto.
Qed.

Lemma usable_absent {A} (value : A -> obj) xs r : gives value xs r None -> usable xs r = Ok None.
Proof.
  intros [(-> & N)|W]; unfold usable.
  - unfold activation_vector. rewrite N. auto.
  - destruct xs as [t|].
    + destruct W as (c & C & V). unfold evaluate_activation. rewrite C, V. auto.
    + destruct W as (a & A' & R). unfold activation_vector. rewrite A'. apply raw_inv in R. destruct R as (_ & R).
      unfold alen. rewrite R. auto.
Qed.

Lemma features_len r : has_features r -> exists n, rule_len r = Ok n /\ (n =? 0)%nat = false.
Proof.
  intros (c & fs & C & (_ & _ & _ & L) & F). unfold rule_len. rewrite C. eexists. split; [reflexivity|].
  unfold clen. rewrite L. destruct fs; [congruence|]. auto.
Qed.

Lemma rseq_numbers (l : list label) (xs : list num) : l = map LNum xs -> number_cells l = Ok xs.
Proof.
  intros ->. unfold number_cells. rewrite map_map. induction xs as [|x t IH]; auto. cbn [map rseq]. rewrite IH. auto.
Qed.

Lemma vector_number r v p : has_features r -> getattr r "prediction" = Ok (number (Fin p)) ->
  rbind (prediction_vector r v) number_cells = Ok (map (fun a => if a =? 0 then NaN else Fin (p * inject_Z a)) v).
Proof.
  intros F P. rewrite prediction_attr in P. unfold prediction_vector. rewrite P. cbn [rbind number].
  destruct (features_len r F) as (n & -> & N). cbn [rbind]. rewrite N.
  apply rseq_numbers. rewrite map_map. apply map_ext. intros a. cbn. destruct (a =? 0); auto.
Qed.

(** ** Rows *)

Lemma nth_map {A B} (f : A -> B) d d' l i : (i < List.length l)%nat -> nth i (map f l) d' = f (nth i l d).
Proof. intros H. rewrite nth_indep with (d' := f d); [apply map_nth|rewrite map_length; auto]. Qed.

Lemma zip_length {A B C} (f : A -> B -> C) u v : List.length u = List.length v -> List.length (zip_with f u v) = List.length u.
Proof. intros H. unfold zip_with. rewrite map_length, combine_length, H. lia. Qed.

Lemma zip_nth {A B C} (f : A -> B -> C) u v i a b d : List.length u = List.length v -> (i < List.length u)%nat ->
  nth i (zip_with f u v) d = f (nth i u a) (nth i v b).
Proof.
  intros H I. unfold zip_with. rewrite nth_map with (d := (a, b)) by (rewrite combine_length; lia).
  rewrite combine_nth; auto.
Qed.

Lemma nth_bits v i : bits v -> nth i v 0 = 0 \/ nth i v 0 = 1.
Proof.
  intros B. revert i. induction B as [|a t Ha _ IH]; intros [|i]; cbn; auto.
Qed.

Lemma same_length_true {A B} (u : list A) (v : list B) : List.length u = List.length v -> same_length u v = true.
Proof. intros H. unfold same_length. apply Nat.eqb_eq. auto. Qed.

Lemma broadcasts_true {A B} (u : list A) (v : list B) : List.length u = List.length v -> broadcasts u v = true.
Proof. intros H. unfold broadcasts. rewrite same_length_true by auto. auto. Qed.

Lemma repeated_same {A B} (u : list A) (v : list B) : List.length u = List.length v -> repeated_to u v = v.
Proof. intros H. destruct v as [|x [|y t]]; auto. cbn [repeated_to List.length] in *. rewrite H. auto. Qed.

(** ** Sums at a row *)

Lemma at_row_app {A} i (bs cs : list (ballot A)) : at_row i (bs ++ cs) = at_row i bs ++ at_row i cs.
Proof. unfold at_row. apply filter_app. Qed.

Lemma qsum_app l l' : (qsum (l ++ l') == qsum l + qsum l')%Q.
Proof. unfold qsum. induction l as [|x t IH]; cbn [app fold_right]; [ring|]. rewrite IH. ring. Qed.

Lemma weight_app {A} i (bs cs : list (ballot A)) : (weight i (bs ++ cs) == weight i bs + weight i cs)%Q.
Proof. unfold weight. rewrite at_row_app, map_app. apply qsum_app. Qed.

Lemma total_app i (bs cs : list (ballot Q)) : (total i (bs ++ cs) == total i bs + total i cs)%Q.
Proof. unfold total. rewrite at_row_app, map_app. apply qsum_app. Qed.

Lemma weight_one {A} i (b : ballot A) : bits (b_active b) ->
  (weight i [b] == inject_Z (nth i (b_active b) 0%Z) * b_weight b)%Q.
Proof.
  intros B. unfold weight, at_row. cbn [filter]. destruct (nth_bits _ i B) as [-> | -> ]; cbn [Z.eqb Pos.eqb map qsum fold_right]; unfold inject_Z; ring.
Qed.

Lemma total_one i (b : ballot Q) : bits (b_active b) ->
  (total i [b] == inject_Z (nth i (b_active b) 0%Z) * (b_weight b * b_value b))%Q.
Proof.
  intros B. unfold total, at_row. cbn [filter]. destruct (nth_bits _ i B) as [-> | -> ]; cbn [Z.eqb Pos.eqb map qsum fold_right]; unfold inject_Z; ring.
Qed.

Definition all_bits {A} (bs : list (ballot A)) : Prop := forall b, In b bs -> bits (b_active b).

(** ** Accumulation *)

(** The sum of the ballots [bs] at a row *)
Definition is_total (i : nat) (bs : list (ballot Q)) (x : num) : Prop :=
  (x = NaN /\ (total i bs == 0)%Q) \/ exists q, x = Fin q /\ (q == total i bs)%Q /\ ~ (q == 0)%Q.

Definition is_weight {A} (i : nat) (bs : list (ballot A)) (x : num) : Prop := exists q, x = Fin q /\ (q == weight i bs)%Q.

Lemma accumulate_ok n bs b cum v : each_row n NaN cum (fun i => is_total i bs) -> bits (b_active b) ->
  each_row n NaN v (fun i x => exists q, x = Fin q /\ (q == total i [b])%Q) ->
  exists cum', accumulate cum v = Ok cum' /\ each_row n NaN cum' (fun i => is_total i (bs ++ [b])).
Proof.
  intros (L & C) B (L2 & V). unfold accumulate. rewrite broadcasts_true by congruence. cbn [negb]. rewrite repeated_same by congruence.
  assert (Z : existsb (fun x => neqb x (Fin 0)) cum = false).
  { apply existsb_false. intros x X. destruct (In_nth _ _ NaN X) as (i & I & <-). rewrite L in I.
    destruct (C i I) as [(-> & _)|(q & -> & _ & N)]; auto. cbn. destruct (Qeq_bool q 0) eqn:Y; auto.
    apply Qeq_bool_iff in Y. contradiction. }
  rewrite Z. eexists. split; [reflexivity|]. split.
  - rewrite map_length, zip_length; congruence.
  - intros i I. rewrite nth_map with (d := NaN) by (rewrite zip_length; congruence).
    rewrite zip_nth with (a := NaN) (b := NaN) by congruence.
    destruct (V i I) as (y & -> & Y). pose proof (total_app i bs [b]) as T.
    destruct (C i I) as [(-> & Z0)|(q & -> & Q1 & Q2)]; cbn [is_nan nadd neqb].
    + destruct (Qeq_bool (0 + y) 0) eqn:X.
      * left. split; auto. apply Qeq_bool_iff in X. rewrite T, Z0, <- Y. auto.
      * right. exists (0 + y)%Q. split; auto. split; [rewrite T, Z0, <- Y; ring|].
        intros X2. apply Qeq_bool_iff in X2. congruence.
    + destruct (Qeq_bool (q + y) 0) eqn:X.
      * left. split; auto. apply Qeq_bool_iff in X. rewrite T, <- Q1, <- Y. auto.
      * right. exists (q + y)%Q. split; auto. split; [rewrite T, <- Q1, <- Y; ring|].
        intros X2. apply Qeq_bool_iff in X2. congruence.
Qed.

(** ** Weighted *)

Definition regression_number (p : Q) : obj := number (Fin p).

Section Weighted.
Variables (E : env) (weights : list (string * num)) (xs : option table).
Hypothesis distinct_weights : NoDup (map fst weights).

Lemma step_ignored r acc : casts E weights regression_number xs r None -> weighted_step E weights xs r acc = Ok acc.
Proof.
  intros C. inversion C as [s S U| s S G|]; subst; unfold weighted_step; rewrite (called_name E r s S); cbn [rbind].
  - rewrite weight_ignored; auto.
  - destruct (weight_of weights s) as [[w|]|e] eqn:W; auto.
    + cbn [rbind]. rewrite (usable_absent regression_number); auto.
    + exfalso. unfold weight_of in W. destruct (entries s weights) as [|w [|w' t]] eqn:X; try discriminate.
      * destruct (neqb w (Fin 0)); try discriminate. destruct (is_nan w); discriminate.
      * assert (I : exists x, In (s, x) weights).
        { destruct (existsb (fun e => str_eqb s (fst e)) weights) eqn:Y.
          - apply existsb_exists in Y as ((s' & x) & X1 & X2). apply String.eqb_eq in X2. cbn in X2. subst. eauto.
          - unfold entries in X. assert (filter (fun e => str_eqb s (fst e)) weights = []) as F.
            { clear -Y. induction weights as [|e' u IH]; auto. cbn in *. apply orb_false_iff in Y as (-> & Y). auto. }
            rewrite F in X. discriminate. }
        destruct I as (x & I). rewrite (entries_one s x weights distinct_weights I) in X. discriminate.
Qed.

Definition state n (bs : list (ballot Q)) (acc : option (list num * list num)) : Prop :=
  exists cum cumw, acc = Some (cum, cumw) /\ each_row n NaN cum (fun i => is_total i bs) /\
    each_row n NaN cumw (fun i => is_weight i bs).

Lemma step_first r b n : casts E weights regression_number xs r (Some b) -> List.length (b_active b) = n ->
  bits (b_active b) /\
  exists cum cumw, weighted_step E weights xs r None = Ok (Some (cum, cumw)) /\
    cum = map (fun a => if a =? 0 then NaN else Fin (b_value b * inject_Z a * b_weight b)) (b_active b) /\
    each_row n NaN cumw (fun i => is_weight i [b]).
Proof.
  intros C N. inversion C as [| |s w p v S I W (F & P & K & B & V)]; subst. cbn [b_active] in *.
  split; auto. unfold weighted_step. rewrite (called_name E r s S). cbn [rbind]. rewrite (weight_found weights s w); auto. cbn [rbind].
  rewrite (usable_working xs r v); auto. cbn [rbind].
  pose proof (vector_number r v p F P) as X. destruct (prediction_vector r v) as [l|e]; [|discriminate]. cbn [rbind] in *.
  rewrite X. cbn [rbind]. eexists. eexists. split; [reflexivity|]. split.
  - rewrite map_map. apply map_ext. intros a. cbn [b_value b_weight]. destruct (a =? 0); auto.
  - split; [rewrite map_length; auto|]. intros i Hi. rewrite nth_map with (d := 0) by auto. cbn [nmul numz].
    eexists. split; [reflexivity|]. rewrite weight_one by auto. cbn. ring.
Qed.

Lemma step_next r b n bs acc : casts E weights regression_number xs r (Some b) -> List.length (b_active b) = n ->
  state n bs acc -> exists acc', weighted_step E weights xs r acc = Ok acc' /\ state n (bs ++ [b]) acc'.
Proof.
  intros C N (cum & cumw & -> & SC & SW). inversion C as [| |s w p v S I W (F & P & K & B & V)]; subst. cbn [b_active] in *.
  unfold weighted_step. rewrite (called_name E r s S). cbn [rbind]. rewrite (weight_found weights s w); auto. cbn [rbind].
  rewrite (usable_working xs r v); auto. cbn [rbind]. rewrite prediction_attr in P. rewrite P.
  cbn [rbind regression_number number times_prediction]. rewrite map_map.
  destruct (accumulate_ok (List.length v) bs (mkBallot w p v) cum
      (map (fun x : Z => nmul (nmul (numz x) (Fin p)) (Fin w)) v)) as (cum' & A & SC'); auto.
  { split; [rewrite map_length; auto|]. intros i Hi. rewrite nth_map with (d := 0) by auto. cbn [nmul numz].
    eexists. split; [reflexivity|]. rewrite total_one by auto. cbn. ring. }
  rewrite A. cbn [rbind]. destruct SW as (LW & SW). rewrite (broadcasts_true cumw v) by auto. cbn [negb]. rewrite repeated_same by (rewrite map_length; auto).
  eexists. split; [reflexivity|]. exists cum'. eexists. split; [reflexivity|]. split; auto.
  split; [rewrite zip_length; [auto|rewrite map_length; auto]|].
  intros i Hi. rewrite zip_nth with (a := NaN) (b := NaN) by (rewrite ?map_length; congruence).
  rewrite nth_map with (d := 0) by auto. destruct (SW i Hi) as (q & -> & Q). cbn [nadd nmul numz].
  eexists. split; [reflexivity|]. rewrite weight_app, weight_one by auto. rewrite Q. cbn. ring.
Qed.

Lemma loop_next rules bs : collected (casts E weights regression_number xs) rules bs ->
  forall n bs0 acc, rows n bs -> state n bs0 acc ->
  exists acc', weighted_loop E weights xs rules acc = Ok acc' /\ state n (bs0 ++ bs) acc'.
Proof.
  induction 1 as [|r t bs C _ IH|r t b bs C _ IH]; intros n bs0 acc R S0.
  - exists acc. rewrite app_nil_r. auto.
  - cbn [weighted_loop]. rewrite step_ignored; auto. cbn [rbind]. auto.
  - cbn [weighted_loop]. destruct (step_next r b n bs0 acc C) as (acc' & -> & S1); auto.
    { apply R. left. auto. }
    cbn [rbind]. replace (bs0 ++ b :: bs) with ((bs0 ++ [b]) ++ bs) by (rewrite <- app_assoc; auto).
    apply IH; auto. intros b' B'. apply R. right. auto.
Qed.

Lemma loop_none rules : collected (casts E weights regression_number xs) rules [] ->
  weighted_loop E weights xs rules None = Ok None.
Proof.
  intros C. remember [] as bs eqn:X. induction C as [|r t bs C _ IH|]; auto; [|discriminate].
  cbn [weighted_loop]. rewrite step_ignored; auto.
Qed.

(** The loop up to the first ballot *)
Lemma loop_first rules b bs : collected (casts E weights regression_number xs) rules (b :: bs) ->
  forall n, rows n (b :: bs) -> bits (b_active b) /\
  exists t cum cumw, collected (casts E weights regression_number xs) t bs /\
    weighted_loop E weights xs rules None = weighted_loop E weights xs t (Some (cum, cumw)) /\
    cum = map (fun a => if a =? 0 then NaN else Fin (b_value b * inject_Z a * b_weight b)) (b_active b) /\
    each_row n NaN cumw (fun i => is_weight i [b]).
Proof.
  intros C. remember (b :: bs) as all eqn:X. induction C as [|r t bs' C C' IH|r t b' bs' C C' IH]; intros n R; [discriminate| |].
  - subst. cbn [weighted_loop]. rewrite step_ignored; auto.
  - injection X as -> ->. destruct (step_first r b n C) as (B & cum & cumw & S1 & S2 & S3).
    { apply R. left. auto. }
    split; auto. exists t, cum, cumw. cbn [weighted_loop]. rewrite S1. auto.
Qed.

Lemma first_total b n : bits (b_active b) -> List.length (b_active b) = n -> ~ (b_value b == 0)%Q -> ~ (b_weight b == 0)%Q ->
  each_row n NaN (map (fun a => if a =? 0 then NaN else Fin (b_value b * inject_Z a * b_weight b)) (b_active b))
    (fun i => is_total i [b]).
Proof.
  intros B L V W. split; [rewrite map_length; auto|]. intros i I. subst n. rewrite nth_map with (d := 0) by auto.
  pose proof (total_one i b B) as T. destruct (nth_bits _ i B) as [X|X]; rewrite X in *; cbn [Z.eqb].
  - left. split; auto. rewrite T. cbn. ring.
  - right. eexists. split; [reflexivity|]. split; [rewrite T; ring|]. intros Z.
    assert (Y : (b_value b * b_weight b == 0)%Q) by (rewrite <- Z; ring). apply Qmult_integral in Y. tauto.
Qed.

Lemma vote_weight r b : casts E weights regression_number xs r (Some b) -> ~ (b_weight b == 0)%Q.
Proof. intros C. inversion C. auto. Qed.

End Weighted.

Lemma collected_in {A} (C : rule -> option (ballot A) -> Prop) rules bs : collected C rules bs ->
  forall b, In b bs -> exists r, In r rules /\ C r (Some b).
Proof.
  induction 1 as [|r t bs C' _ IH|r t b bs C' _ IH]; intros b' I; [contradiction| |].
  - destruct (IH b' I) as (r' & R & X). exists r'. split; auto. right. auto.
  - destruct I as [->|I]; [exists r; split; auto; left; auto|]. destruct (IH b' I) as (r' & R & X).
    exists r'. split; auto. right. auto.
Qed.

Lemma at_row_none {A} i (bs : list (ballot A)) : at_row i bs = [] <-> forall b, In b bs -> ~ active i b.
Proof.
  unfold at_row, active. split.
  - intros H b I X. assert (Y : In b (filter (fun b => nth i (b_active b) 0 =? 1) bs)).
    { apply filter_In. split; auto. rewrite X. auto. }
    rewrite H in Y. contradiction.
  - intros H. induction bs as [|b t IH]; auto. cbn [filter]. destruct (nth i (b_active b) 0 =? 1) eqn:X.
    + apply Z.eqb_eq in X. destruct (H b); auto. left. auto.
    + apply IH. intros b' B'. apply H. right. auto.
Qed.

Lemma at_row_some {A} i (bs : list (ballot A)) : at_row i bs <> [] -> exists b, In b bs /\ active i b.
Proof.
  intros H. destruct (at_row i bs) as [|b t] eqn:X; [congruence|]. exists b.
  assert (I : In b (at_row i bs)) by (rewrite X; left; auto). unfold at_row in I. apply filter_In in I. destruct I as (I & Y).
  split; auto. apply Z.eqb_eq in Y. auto.
Qed.

Lemma mean_of i bs x w : is_total i bs x -> is_weight i bs w -> weighs i bs -> at_row i bs = [] \/ ~ (total i bs == 0)%Q ->
  is_mean i bs (ndiv x w).
Proof.
  intros T (v & -> & V) W N. unfold is_mean. destruct (at_row i bs) as [|b t] eqn:X.
  - left. split; [apply at_row_none; auto|]. destruct T as [(-> & _)|(q & -> & Q & Z)]; auto.
    exfalso. apply Z. rewrite Q. unfold total. rewrite X. reflexivity.
  - right. split; [apply at_row_some; congruence|]. destruct N as [N|N]; [discriminate|].
    destruct W as [W|W]; [congruence|]. destruct T as [(_ & T)|(q & -> & Q & _)]; [contradiction|].
    cbn [ndiv]. destruct (Qeq_bool v 0) eqn:Y.
    + apply Qeq_bool_iff in Y. rewrite V in Y. contradiction.
    + eexists. split; [reflexivity|]. rewrite Q, V. reflexivity.
Qed.

(** One ballot *)
Lemma mean_one b i w : bits (b_active b) -> is_weight i [b] w -> ~ (b_weight b == 0)%Q -> (i < List.length (b_active b))%nat ->
  is_mean i [b] (ndiv (nth i (map (fun a => if a =? 0 then NaN else Fin (b_value b * inject_Z a * b_weight b)) (b_active b)) NaN) w).
Proof.
  intros B (v & -> & V) W I. rewrite nth_map with (d := 0) by auto. pose proof (weight_one i b B) as X.
  pose proof (total_one i b B) as T. unfold is_mean, active.
  destruct (nth_bits _ i B) as [Y|Y]; rewrite Y in *; cbn [Z.eqb].
  - left. split; auto. intros b' [<-|[]]. lia.
  - right. split; [exists b; split; [left; auto|auto]|]. cbn [ndiv].
    assert (V1 : (v == b_weight b)%Q) by (rewrite V, X; cbn; ring).
    destruct (Qeq_bool v 0) eqn:Z.
    + apply Qeq_bool_iff in Z. rewrite V1 in Z. contradiction.
    + eexists. split; [reflexivity|]. rewrite T, X, V1. cbn. field. auto.
Qed.

Lemma weighted_unstacked E rules weights xs bs n :
  NoDup (map fst weights) -> collected (casts E weights regression_number xs) rules bs -> rows n bs ->
  (exists b, bs = [b]) \/ (exists b t, bs = b :: t /\ ~ (b_value b == 0)%Q) ->
  exists l, weighted_regressor_unstacked E rules weights xs = Ok l /\
    each_row n NaN l (fun i x =>
      weighs i bs -> List.length bs = 1%nat \/ at_row i bs = [] \/ ~ (total i bs == 0)%Q -> is_mean i bs x).
Proof.
  intros N C R H. assert (X : exists b t, bs = b :: t) by (destruct H as [(b & ->)|(b & t & -> & _)]; eauto).
  destruct X as (b & t & ->). unfold weighted_regressor_unstacked.
  destruct (loop_first E weights xs N rules b t C n R) as (B & t' & cum & cumw & C' & L & -> & SW).
  destruct rules as [|r rules]; [inversion C|]. rewrite L.
  assert (LB : List.length (b_active b) = n) by (apply R; left; auto).
  destruct (collected_in _ _ _ C b) as (r' & _ & Cb); [left; auto|]. apply vote_weight in Cb.
  destruct t as [|b2 t].
  - clear H. assert (Y : weighted_loop E weights xs t' (Some (map (fun a => if a =? 0 then NaN else Fin (b_value b * inject_Z a * b_weight b)) (b_active b), cumw)) =
        Ok (Some (map (fun a => if a =? 0 then NaN else Fin (b_value b * inject_Z a * b_weight b)) (b_active b), cumw))).
    { clear L. remember (@nil (ballot Q)) as none eqn:Z. induction C' as [|q u cs Cq _ IH|]; auto; [|discriminate].
      cbn [weighted_loop]. rewrite step_ignored; auto. }
    rewrite Y. cbn [rbind]. unfold quotient. destruct SW as (LW & SW). rewrite same_length_true by (rewrite map_length; congruence).
    cbn [negb]. eexists. split; [reflexivity|]. split; [rewrite zip_length; rewrite map_length; congruence|].
    intros i I W _. rewrite zip_nth with (a := NaN) (b := NaN) by (rewrite map_length; congruence).
    apply mean_one; auto. congruence.
  - destruct H as [(? & H)|(b' & ? & H & V)]; [discriminate|]. injection H as <- <-.
    destruct (loop_next E weights xs N t' (b2 :: t) C' n [b] (Some (map (fun a => if a =? 0 then NaN else Fin (b_value b * inject_Z a * b_weight b)) (b_active b), cumw)))
      as (acc & -> & (cum & cw & -> & SC & SW')).
    { intros x X. apply R. right. auto. }
    { eexists. eexists. split; [reflexivity|]. split; auto. apply first_total; auto. }
    cbn [rbind]. unfold quotient. destruct SC as (LC & SC). destruct SW' as (LW & SW'). rewrite same_length_true by congruence.
    cbn [negb]. eexists. split; [reflexivity|]. split; [rewrite zip_length; congruence|].
    intros i I W Z. rewrite zip_nth with (a := NaN) (b := NaN) by congruence.
    apply mean_of; auto. destruct Z as [Z|Z]; auto. cbn in Z. discriminate.
Qed.

(** Proofs about the evaluation of conditions. *)
From Coq Require Import List ZArith QArith Bool String Ascii Lia.
From Coq Require Import List.
From Coq Require Import Sorting.Sorted Sorting.Permutation.
From Verif Require Import Base Num CondModel CondSpec CondBase CondProofs.
Import ListNotations.
Open Scope Z_scope.

Definition bit01 (l : list Z) : Prop := forall x, In x l -> x = 0 \/ x = 1.

Lemma within_spec x lo hi :
  within x lo hi <-> (ngeb x lo && nleb x hi && is_finite x)%bool = true.
Proof.
  unfold within, ngeb. rewrite !andb_true_iff, !nleb_spec. destruct x; cbn [is_finite].
  - split; [intros ((q & Hq) & _); discriminate|intros (_ & H); discriminate].
  - split; [intros ((q0 & Hq) & _); discriminate|intros (_ & H); discriminate].
  - split; [tauto|]. intros ((A & B) & _). eauto.
  - split; [intros ((q & Hq) & _); discriminate|intros (_ & H); discriminate].
Qed.

Lemma within_dec x lo hi : within x lo hi \/ ~ within x lo hi.
Proof. rewrite within_spec. destruct (ngeb x lo && nleb x hi && is_finite x)%bool; auto. Qed.

Lemma restrict_length acc col lo hi :
  List.length acc = List.length col -> List.length (restrict acc col lo hi) = List.length acc.
Proof. intros H. unfold restrict. rewrite map_length, combine_length. lia. Qed.

Lemma restrict_bits acc col lo hi : bit01 acc -> bit01 (restrict acc col lo hi).
Proof.
  intros B x Hx. unfold restrict in Hx. apply in_map_iff in Hx. destruct Hx as ((a & y) & <- & H).
  apply in_combine_l in H. cbn [fst snd]. destruct (B _ H); subst a;
    destruct (ngeb y lo), (nleb y hi), (is_finite y); cbn; auto.
Qed.

Lemma restrict_nth acc col lo hi r :
  bit01 acc -> List.length acc = List.length col -> (r < List.length acc)%nat ->
  nth r (restrict acc col lo hi) 0 = 1 <-> nth r acc 0 = 1 /\ within (nth r col NaN) lo hi.
Proof.
  revert col r. induction acc as [|a acc IH]; intros [|y col] r B L R; cbn in L, R; try lia.
  destruct r as [|r].
  - cbn. rewrite within_spec. destruct (B a (or_introl eq_refl)); subst a;
      destruct (ngeb y lo), (nleb y hi), (is_finite y); cbn; intuition (try lia; try discriminate).
  - cbn. apply IH; try lia. intros z Hz. apply B. right; auto.
Qed.

Lemma at_pos_app {A} (pre : list A) x l : at_pos (pre ++ x :: l) (List.length pre) = Ok x.
Proof. unfold at_pos. rewrite nth_error_app2, Nat.sub_diag by auto. auto. Qed.

Lemma at_pos_map {A B} (g : A -> B) (pre : list A) x l :
  at_pos (map g pre ++ x :: l) (List.length pre) = Ok x.
Proof. rewrite <- (map_length g pre). apply at_pos_app. Qed.

Lemma eval_loop_ok {K} (column : K -> res (list num)) (key : feature -> K)
    (col : feature -> list num) n fs :
  forall pre acc,
  (forall f, In f fs -> column (key f) = Ok (col f) /\ List.length (col f) = n) ->
  List.length acc = n -> bit01 acc ->
  exists v,
    eval_loop column (Some (map f_low (pre ++ fs))) (Some (map f_high (pre ++ fs)))
      (List.length pre) (map key fs) acc = Ok v /\
    List.length v = n /\ bit01 v /\
    forall r, (r < n)%nat ->
      (nth r v 0 = 1 <-> nth r acc 0 = 1 /\
         forall f, In f fs -> within (nth r (col f) NaN) (f_low f) (f_high f)).
Proof.
  induction fs as [|f t IH]; intros pre acc HC L B.
  - exists acc. cbn. repeat split; auto; try tauto.
  - destruct (HC f (or_introl eq_refl)) as (E1 & E2).
    cbn [map eval_loop]. rewrite E1. cbn [rbind need].
    rewrite !map_app. cbn [map].
    rewrite at_pos_map. cbn [rbind].
    rewrite at_pos_map. cbn [rbind].
    destruct (IH (pre ++ [f]) (restrict acc (col f) (f_low f) (f_high f))) as (v & E & Lv & Bv & V).
    + intros g Hg. apply HC. right; auto.
    + rewrite restrict_length; lia.
    + apply restrict_bits; auto.
    + exists v. rewrite app_length in E. cbn [List.length] in E. rewrite Nat.add_1_r in E.
      rewrite <- app_assoc, !map_app in E. cbn in E. rewrite E.
      split; auto. split; auto. split; auto. intros r R.
      rewrite (V r R), restrict_nth by (auto; lia). split.
      * intros ((V1 & V2) & V3). split; auto. intros g [ <- |Hg]; auto.
      * intros (V1 & V2). split; [split; auto; apply V2; left; auto|].
        intros g Hg. apply V2. right; auto.
Qed.

(** Columns *)

Definition column_values (xs : table) (f : feature) : list num :=
  match xs with
  | TArray d rows =>
      map (fun r => nth (Z.to_nat (if f_index f <? 0 then d + f_index f else f_index f)) r NaN) rows
  | TFrame _ columns =>
      match frame_column columns (f_name f) with Ok c => c | Err _ => [] end
  end.

Lemma array_column_ok d rows f :
  has_feature (TArray d rows) f ->
  array_column d rows (f_index f) = Ok (column_values (TArray d rows) f).
Proof.
  cbn [has_feature]. intros H. unfold array_column, column_values.
  destruct (Z.ltb_spec (f_index f) 0) as [N|N].
  - destruct (Z.leb_spec 0 (f_index f)); [lia|]. cbn [andb].
    destruct (Z.leb_spec (- d) (f_index f)); [|lia]. reflexivity.
  - destruct (Z.leb_spec 0 (f_index f)); [|lia].
    destruct (Z.ltb_spec (f_index f) d); [|lia]. reflexivity.
Qed.

Lemma frame_column_In columns f :
  In f (map fst columns) -> exists c, frame_column columns f = Ok c /\ In (f, c) columns.
Proof.
  induction columns as [|(g & c) t IH]; cbn; [tauto|]. intros H.
  destruct (str_eqb f g) eqn:E.
  - apply seqb_spec in E. subst. eauto.
  - destruct H as [ -> |H].
    + rewrite (proj2 (seqb_spec f f) eq_refl) in E. discriminate.
    + destruct (IH H) as (c' & A & B). eauto.
Qed.

Lemma frame_column_ok n columns f :
  well_shaped (TFrame n columns) -> has_feature (TFrame n columns) f ->
  frame_column columns (f_name f) = Ok (column_values (TFrame n columns) f) /\
  List.length (column_values (TFrame n columns) f) = n /\
  In (f_name f, column_values (TFrame n columns) f) columns.
Proof.
  intros (N & W) H. cbn [has_feature] in H.
  destruct (frame_column_In _ _ H) as (c & E & I). unfold column_values. rewrite E.
  repeat split; auto. apply (W (f_name f, c)). auto.
Qed.

Lemma nth_error_nth_map {A B} (g : A -> B) (l : list A) r x d :
  nth_error l r = Some x -> nth r (map g l) d = g x.
Proof. revert r. induction l; intros [|r]; cbn; try discriminate; [congruence|auto]. Qed.

Lemma column_value xs f r x :
  well_shaped xs -> has_feature xs f -> (r < nrows xs)%nat ->
  value xs r f x <-> nth r (column_values xs f) NaN = x.
Proof.
  destruct xs as [d rows|n columns]; intros W H R.
  - cbn [has_feature nrows well_shaped] in *.
    destruct (nth_error rows r) as [row|] eqn:E.
    2: { apply nth_error_None in E. lia. }
    assert (Wr : Z.of_nat (List.length row) = d) by (apply W; eapply nth_error_In; eauto).
    unfold column_values. rewrite (nth_error_nth_map _ _ _ _ _ E). cbn [value].
    split.
    + intros (row' & E' & C). rewrite E in E'. injection E' as <-.
      destruct C as [(P & C)|(P & C)].
      * destruct (Z.ltb_spec (f_index f) 0); [lia|]. apply nth_error_nth; auto.
      * destruct (Z.ltb_spec (f_index f) 0); [|lia]. apply nth_error_nth; auto.
    + intros <-. exists row. split; auto.
      destruct (Z.ltb_spec (f_index f) 0); [right|left]; (split; [lia|]);
        apply nth_error_nth'; lia.
  - destruct (frame_column_ok _ _ _ W H) as (E1 & E2 & E3). cbn [nrows] in R.
    cbn [value]. split.
    + intros (c & I & C). destruct W as (N & W).
      assert (c = column_values (TFrame n columns) f) as ->.
      { assert ((f_name f, c) = (f_name f, column_values (TFrame n columns) f)) as G.
        { eapply (NoDup_map_inj fst); eauto. }
        congruence. }
      apply nth_error_nth; auto.
    + intros <-. eexists. split; [exact E3|]. apply nth_error_nth'. lia.
Qed.

Lemma land_diag x : Z.land (Z.land x x) x = x.
Proof. rewrite !Z.land_diag. auto. Qed.

Lemma map_land_id l : map (fun x => Z.land (Z.land x x) x) l = l.
Proof. rewrite (map_ext _ (fun x => x)); [apply map_id|]. apply land_diag. Qed.

Lemma bit01_repeat n b : b = 0 \/ b = 1 -> bit01 (repeat b n).
Proof. intros H x Hx. apply repeat_spec in Hx. subst. auto. Qed.

Lemma nth_repeat_lt {A} (x d : A) n r : (r < n)%nat -> nth r (repeat x n) d = x.
Proof. revert r. induction n; intros [|r] H; cbn; auto; try lia. apply IHn. lia. Qed.

Lemma satisfied_within xs r fs :
  well_shaped xs -> (forall f, In f fs -> has_feature xs f) -> (r < nrows xs)%nat ->
  satisfied xs r fs <->
  forall f, In f fs -> within (nth r (column_values xs f) NaN) (f_low f) (f_high f).
Proof.
  intros W H R. split; intros S f Hf.
  - destruct (S f Hf) as (x & V & I). apply column_value in V; auto. subst. auto.
  - eexists. split; [apply column_value; auto|]. auto.
Qed.

Lemma marks_intro xs fs v :
  well_shaped xs -> (forall f, In f fs -> has_feature xs f) ->
  List.length v = nrows xs -> bit01 v ->
  (forall r, (r < nrows xs)%nat ->
     (nth r v 0 = 1 <-> forall f, In f fs -> within (nth r (column_values xs f) NaN) (f_low f) (f_high f))) ->
  marks xs fs v.
Proof.
  intros W H L B V. split; auto. intros r R. specialize (V r R).
  rewrite <- (satisfied_within xs r fs W H R) in V.
  destruct (B (nth r v 0)) as [E|E]; [apply nth_In; lia| |].
  - right. split; auto. intros S. apply V in S. lia.
  - left. tauto.
Qed.

Lemma crossed_unsatisfied xs r fs : crossed fs -> ~ satisfied xs r fs.
Proof.
  intros (f & Hf & C) S. destruct (S f Hf) as (x & _ & (_ & A & B)).
  eapply nlt_not_nle; [exact C|]. eapply nle_trans; eauto.
Qed.

Lemma marks_zeros xs fs : crossed fs -> marks xs fs (repeat 0 (nrows xs)).
Proof.
  intros C. split; [apply repeat_length|]. intros r R. right.
  rewrite nth_repeat_lt by auto. split; auto. apply crossed_unsatisfied; auto.
Qed.

(** Evaluation of a condition without the flag *)
Lemma evaluate_unflagged c fs xs :
  lists c fs -> c_imp c = false -> well_shaped xs -> accepted xs fs ->
  exists v, evaluate c xs = Ok v /\ marks xs fs v.
Proof.
  intros (L1 & L2 & L3 & L4) Imp W (H & NE). unfold evaluate. rewrite Imp.
  destruct xs as [d rows|n columns].
  - rewrite L1, L2, L3. cbn [need rbind].
    assert (existsb (fun i => d <=? i) (map f_index fs) = false) as ->.
    { apply existsb_false. intros i Hi. apply in_map_iff in Hi. destruct Hi as (f & <- & Hf).
      specialize (H f Hf). cbn [has_feature] in H. apply Z.leb_gt. lia. }
    destruct (eval_loop_ok (array_column d rows) f_index (column_values (TArray d rows))
                (List.length rows) fs [] (repeat 1 (List.length rows))) as (v & E & Lv & Bv & V).
    { intros f Hf. split; [apply array_column_ok; auto|]. apply map_length. }
    { apply repeat_length. }
    { apply bit01_repeat; auto. }
    cbn [app List.length] in E. rewrite E. cbn [rbind]. rewrite map_land_id.
    exists v. split; auto. apply marks_intro; auto. cbn [nrows]. intros r R.
    rewrite (V r R), nth_repeat_lt by auto. tauto.
  - rewrite L4, L2, L3. cbn [need rbind].
    assert (existsb (fun f => negb (mem str_eqb f (map fst columns))) (map f_name fs) = false) as ->.
    { apply existsb_false. intros i Hi. apply in_map_iff in Hi. destruct Hi as (f & <- & Hf).
      specialize (H f Hf). cbn [has_feature] in H. apply negb_false_iff.
      apply (mem_spec _ seqb_spec). auto. }
    destruct (eval_loop_ok (frame_column columns) f_name (column_values (TFrame n columns))
                n fs [] (repeat 1 n)) as (v & E & Lv & Bv & V).
    { intros f Hf. destruct (frame_column_ok n columns f W (H f Hf)) as (? & ? & ?). auto. }
    { apply repeat_length. }
    { apply bit01_repeat; auto. }
    cbn [app List.length] in E. rewrite E. cbn [rbind].
    destruct fs as [|f0 fs']; [congruence|]. cbn [map]. rewrite map_land_id.
    exists v. split; auto. apply marks_intro; auto. cbn [nrows]. intros r R.
    rewrite (V r R), nth_repeat_lt by auto. tauto.
Qed.

(** Evaluation when the table has every feature. *)
Lemma evaluate_marks c fs xs :
  condition c fs -> well_shaped xs -> accepted xs fs ->
  exists v, evaluate c xs = Ok v /\ marks xs fs v.
Proof.
  intros (L & D & I) W A. destruct (c_imp c) eqn:Imp.
  - unfold evaluate. rewrite Imp. eexists. split; [reflexivity|]. apply marks_zeros. tauto.
  - apply evaluate_unflagged; auto.
Qed.

(** Evaluation of a flagged condition, with or without the features. *)
Lemma evaluate_flagged c xs : c_imp c = true -> evaluate c xs = Ok (repeat 0 (nrows xs)).
Proof. intros E. unfold evaluate. rewrite E. auto. Qed.

Lemma array_column_err d rows j : ~ (- d <= j < d) -> array_column d rows j = Err EIndex.
Proof.
  intros H. unfold array_column.
  destruct (Z.leb_spec 0 j), (Z.ltb_spec j d), (Z.leb_spec (- d) j), (Z.ltb_spec j 0); cbn; auto; lia.
Qed.

Lemma eval_loop_err d rows fs : forall pre acc,
  (exists f, In f fs /\ ~ (- d <= f_index f < d)) ->
  eval_loop (array_column d rows) (Some (map f_low (pre ++ fs))) (Some (map f_high (pre ++ fs)))
    (List.length pre) (map f_index fs) acc = Err EIndex.
Proof.
  induction fs as [|f t IH]; intros pre acc (g & Hg & N); [destruct Hg|].
  cbn [map eval_loop].
  assert (Dec : (- d <= f_index f < d) \/ ~ (- d <= f_index f < d)) by lia.
  destruct Dec as [Y|Y].
  - rewrite (array_column_ok d rows f Y). cbn [rbind need].
    rewrite !map_app. cbn [map].
    rewrite at_pos_map. cbn [rbind].
    rewrite at_pos_map. cbn [rbind].
    specialize (IH (pre ++ [f]) (restrict acc (column_values (TArray d rows) f) (f_low f) (f_high f))).
    rewrite app_length in IH. cbn [List.length] in IH. rewrite Nat.add_1_r in IH.
    rewrite <- app_assoc, !map_app in IH. cbn in IH. apply IH.
    destruct Hg as [ <- |Hg]; [contradiction|]. eauto.
  - rewrite array_column_err; auto.
Qed.

Lemma evaluate_missing c fs xs :
  condition c fs -> ~ crossed fs -> (exists f, In f fs /\ ~ has_feature xs f) ->
  evaluate c xs = Err EIndex.
Proof.
  intros ((L1 & L2 & L3 & L4) & D & I) C (f & Hf & N). unfold evaluate.
  destruct (c_imp c) eqn:Imp; [tauto|]. destruct xs as [d rows|n columns]; cbn [has_feature] in N.
  - rewrite L1, L2, L3. cbn [need rbind].
    destruct (existsb (fun i => d <=? i) (map f_index fs)); auto.
    pose proof (eval_loop_err d rows fs [] (repeat 1 (List.length rows))) as E.
    cbn [app List.length] in E. rewrite E; eauto.
  - rewrite L4. cbn [need rbind].
    assert (existsb (fun f => negb (mem str_eqb f (map fst columns))) (map f_name fs) = true) as ->; auto.
    apply existsb_exists. exists (f_name f). split; [apply in_map; auto|].
    apply negb_true_iff. apply (mem_false _ seqb_spec). auto.
Qed.

Lemma evaluate_nothing c n columns :
  condition c [] -> evaluate c (TFrame n columns) = Err EAttr.
Proof.
  intros ((L1 & L2 & L3 & L4) & D & I). unfold evaluate.
  destruct (c_imp c).
  { exfalso. destruct (proj1 I eq_refl) as (f & [] & _). }
  rewrite L4. cbn. auto.
Qed.

Lemma marks_unique xs fs v w : marks xs fs v -> marks xs fs w -> v = w.
Proof.
  intros (L1 & V) (L2 & W). apply (nth_ext _ _ 0 0); [congruence|].
  intros r R. rewrite L1 in R. destruct (V r R) as [(A & B)|(A & B)], (W r R) as [(A' & B')|(A' & B')];
    congruence || contradiction.
Qed.

(** The converse of [evaluate_marks] and [evaluate_flagged]. *)
Lemma evaluate_inv c fs xs v :
  condition c fs -> well_shaped xs -> evaluate c xs = Ok v -> marks xs fs v.
Proof.
  intros C W E. destruct (c_imp c) eqn:Imp.
  - rewrite evaluate_flagged in E by auto. injection E as <-. apply marks_zeros.
    destruct C as (_ & _ & I). tauto.
  - assert (NC : ~ crossed fs). { destruct C as (_ & _ & I). intros K. apply I in K. congruence. }
    assert (A : accepted xs fs).
    { split.
      - intros f Hf. assert (Dec : has_feature xs f \/ ~ has_feature xs f).
        { destruct xs; cbn [has_feature]; [lia|].
          destruct (in_dec string_dec (f_name f) (map fst columns)); auto. }
        destruct Dec as [|N]; auto. rewrite (evaluate_missing c fs xs) in E; eauto. discriminate.
      - destruct xs; auto. intros ->. rewrite evaluate_nothing in E; auto. discriminate. }
    destruct (evaluate_marks c fs xs C W A) as (w & E' & M). congruence.
Qed.

(** ** Impossible conditions *)

Lemma possible_point c fs :
  condition c fs -> fs <> [] -> finite_bounds fs -> c_imp c = false ->
  exists xs, well_shaped xs /\ evaluate c xs = Ok [1].
Proof.
  intros C NE F Imp.
  assert (NC : ~ crossed fs). { destruct C as (_ & _ & I). intros K. apply I in K. congruence. }
  set (xs := TFrame 1 (map (fun f => (f_name f, [f_low f])) fs)).
  assert (W : well_shaped xs).
  { split.
    - rewrite map_map. cbn. apply C.
    - intros col Hc. apply in_map_iff in Hc. destruct Hc as (f & <- & _). auto. }
  exists xs. split; auto.
  destruct (evaluate_marks c fs xs C W) as (v & E & L & V).
  { split; auto. intros f Hf. cbn. rewrite map_map. cbn. apply in_map; auto. }
  rewrite E. f_equal. cbn in L. destruct v as [|x [|y t]]; cbn in L; try lia.
  destruct (V O) as [(A & _)|(_ & A)]; [cbn; lia|cbn in A; congruence|].
  exfalso. apply A. intros f Hf. exists (f_low f). cbn. split.
  - exists [f_low f]. split; auto. apply in_map_iff. eauto.
  - destruct (F f Hf) as (a & b & Ea & Eb). split; eauto. rewrite Ea, Eb. split.
    + cbn. apply Qle_refl.
    + cbn. apply Qnot_lt_le. intros Lt. apply NC. exists f. rewrite Ea, Eb. cbn. auto.
Qed.

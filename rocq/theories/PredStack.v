(** Predictions of regression rules with stacked activations. *)
From Coq Require Import List ZArith QArith Bool String Ascii Lia Lqa.
From Coq Require Import List.
From Verif Require Import Base Num Arith CondModel CondSpec CondBase ThrModel ThrProofs MetModel MetSpec RuleModel RuleSpec
  RuleProofs RuleValues RuleEval RuleMisc PredModel PredSpec PredReg PredEqual.
Import ListNotations.
Open Scope string_scope.
Open Scope list_scope.
Open Scope Z_scope.

(** ** Series by name *)

Lemma fold_dset {A} (l : list (string * A)) : forall d, NoDup (map fst (d ++ l)) ->
  fold_left (fun d p => dset (fst p) (snd p) d) l d = d ++ l.
Proof.
  induction l as [|[s x] t IH]; intros d N; [rewrite app_nil_r; auto|]. cbn [fold_left fst snd].
  assert (D : dset s x d = d ++ [(s, x)]).
  { clear IH. rewrite map_app in N. cbn [map fst] in N. apply NoDup_remove_2 in N.
    assert (M : ~ In s (map fst d)) by (intros I; apply N; apply in_or_app; auto). clear N.
    induction d as [|[s' x'] u IHd]; auto. cbn [dset]. cbn [map fst] in M. destruct (str_eqb s s') eqn:X.
    - apply String.eqb_eq in X. destruct M. left. auto.
    - cbn [app]. f_equal. apply IHd. intros I. apply M. right. auto. }
  rewrite D, IH; [rewrite <- app_assoc; auto|]. rewrite <- app_assoc. auto.
Qed.

Lemma by_name_ok {A} E (f : rule -> res A) rules l :
  Forall2 (fun r p => rule_name E r = Ok (fst p) /\ f r = Ok (snd p)) rules l -> NoDup (map fst l) ->
  by_name E f rules = Ok l.
Proof.
  intros F N. unfold by_name.
  assert (X : rseq (map (fun r => rbind (rule_name E r) (fun s => rmap (pair s) (f r))) rules) = Ok l).
  { clear N. induction F as [|r [s x] rules l (R & V) _ IH]; auto. cbn [map rseq]. rewrite R, V. cbn [rbind rmap].
    rewrite IH. auto. }
  rewrite X. cbn [rmap]. f_equal. apply (fold_dset l []). auto.
Qed.

Lemma forall2_map {A B C} (P : A -> C -> Prop) (f : B -> C) l m :
  Forall2 (fun a b => P a (f b)) l m -> Forall2 P l (map f m).
Proof. induction 1; constructor; auto. Qed.

Lemma forall2_weaken {A B} (P Q : A -> B -> Prop) l m : (forall a b, P a b -> Q a b) -> Forall2 P l m -> Forall2 Q l m.
Proof. induction 2; constructor; auto. Qed.

(** ** The DataFrame in use *)

Lemma evaluated r t v : working r (Some t) v -> rbind (evaluate_activation r t) raw = Ok v.
Proof.
  intros (c & C & V). unfold evaluate_activation. rewrite C, V. cbn [rmap rbind new_activation raw v_here v_bits]. auto.
Qed.

Lemma stacked_frame E rules n st xs k w shared columns :
  vectors E xs rules n columns -> (xs = None -> st = mkFrame n columns) -> rules <> [] ->
  fst (predict_rules E true shared (Some k) rules (Some st) xs w) = predict_stacked E k rules (mkFrame n columns) w.
Proof.
  intros (F & N & P) S R. unfold predict_rules. destruct rules as [|r rules]; [congruence|].
  cbn [fst]. destruct xs as [t|]; [|rewrite S by auto; auto].
  assert (Y : stack E (Some t) (r :: rules) = Ok (Some (mkFrame n columns))).
  { unfold stack. rewrite (by_name_ok E _ (r :: rules) columns); auto.
    - cbn [rbind]. assert (L : forall c, In c columns -> List.length (snd c) = n).
      { clear -F. induction F as [|a b l m (_ & _ & _ & X) _ IH]; intros c I; [contradiction|].
        destruct I as [->|I]; auto. }
      destruct columns as [|[s v] cs]; [inversion F|]. rewrite (L (s, v) (or_introl eq_refl) : List.length v = n).
      replace (forallb (fun c => (List.length (snd c) =? n)%nat) ((s, v) :: cs)) with true; auto.
      symmetry. apply forallb_forall. intros c I. apply Nat.eqb_eq. auto.
    - eapply forall2_weaken; [|exact F]. intros a b (X1 & X2 & _). split; [apply called_name; auto|].
      apply evaluated. auto. }
  rewrite Y. auto.
Qed.

(** ** Columns of the products *)

Definition product_column {A B} (nan : B) (f : Z -> A -> B) (s : list (string * A)) (c : string * list Z) : string * list B :=
  (fst c, match dget (fst c) s with
          | Some x => map (fun a => if a =? 0 then nan else f a x) (snd c)
          | None => map (fun _ => nan) (snd c)
          end).

Definition extra_columns {A B} (nan : B) (n : nat) (names : list string) (s : list (string * A)) : list (string * list B) :=
  map (fun p => (fst p, repeat nan n)) (filter (fun p => negb (mem str_eqb (fst p) names)) s).

Lemma frame_times_columns {A B} nan (f : Z -> A -> B) n cs s :
  frame_times nan f (mkFrame n cs) s = mkFrame n (map (product_column nan f s) cs ++ extra_columns nan n (map fst cs) s).
Proof. reflexivity. Qed.

Lemma mem_In s l : mem str_eqb s l = true <-> In s l.
Proof.
  unfold mem. rewrite existsb_exists. split.
  - intros (x & I & X). apply String.eqb_eq in X. subst. auto.
  - intros I. exists s. split; auto. apply String.eqb_refl.
Qed.

(** No extra column when the names are those of the columns *)
Lemma no_extra {A B} (nan : B) n names (s : list (string * A)) : map fst s = names -> extra_columns nan n names s = [].
Proof.
  intros <-. unfold extra_columns. rewrite (proj2 (@filter_ext_in_iff _ _ (fun _ => false) _)).
  - induction s; auto.
  - intros p I. apply negb_false_iff. apply mem_In. apply in_map. auto.
Qed.

Definition zero_nan (x : num) : num := if neqb x (Fin 0) then NaN else x.

Definition kept (c : string * list num) : bool := existsb (fun x => negb (is_nan x)) (snd c).

Lemma kept_nan s n : kept (s, repeat NaN n) = false.
Proof. unfold kept. induction n; auto. Qed.

Lemma filter_extra {A} n names (s : list (string * A)) :
  filter kept (map (fun c => (fst c, map zero_nan (snd c))) (extra_columns NaN n names s)) = [].
Proof.
  unfold extra_columns. rewrite map_map. generalize (filter (fun p : string * A => negb (mem str_eqb (fst p) names)) s). intros l.
  induction l as [|p t IH]; auto. cbn [map filter fst snd].
  assert (X : map zero_nan (repeat NaN n) = repeat NaN n) by (clear; induction n; cbn; f_equal; auto).
  cbn [fst snd] in IH. rewrite X in *. rewrite kept_nan. auto.
Qed.

Lemma dget_filter_map {A} (g : string * list Z -> list A) (keep : string * list A -> bool) cs c :
  NoDup (map fst cs) -> In c cs -> keep (fst c, g c) = true ->
  dget (fst c) (filter keep (map (fun c => (fst c, g c)) cs)) = Some (g c).
Proof.
  intros N I K. induction cs as [|d t IH]; [contradiction|]. cbn [map filter]. cbn [map] in N. inversion N as [|? ? N1 N2]. subst.
  destruct I as [->|I].
  - rewrite K. cbn [dget]. unfold str_eqb. rewrite String.eqb_refl. auto.
  - assert (D : fst c <> fst d) by (intros X; apply N1; rewrite <- X; apply in_map; auto).
    destruct (keep (fst d, g d)); auto. cbn [dget]. rewrite str_neq by auto. auto.
Qed.

Lemma mem_filter_map {A} (g : string * list Z -> list A) (keep : string * list A -> bool) cs c :
  NoDup (map fst cs) -> In c cs ->
  mem str_eqb (fst c) (map fst (filter keep (map (fun c => (fst c, g c)) cs))) = keep (fst c, g c).
Proof.
  intros N I. destruct (keep (fst c, g c)) eqn:K.
  - apply mem_In. apply in_map_iff. exists (fst c, g c). split; auto. apply filter_In. split; auto.
    apply in_map_iff. exists c. auto.
  - apply not_true_is_false. intros M. apply mem_In in M. apply in_map_iff in M as ((s & l) & X1 & X2). apply filter_In in X2 as (X2 & X3).
    apply in_map_iff in X2 as (d & X4 & X5). injection X4 as <- <-. cbn in X1.
    assert (d = c).
    { clear -N I X5 X1. induction cs as [|e t IH]; [contradiction|]. cbn in N. inversion N as [|? ? N1 N2]. subst.
      destruct I as [->|I], X5 as [->|X5]; auto.
      - destruct N1. rewrite <- X1. apply in_map. auto.
      - destruct N1. rewrite X1. apply in_map. auto. }
    subst. congruence.
Qed.

Lemma filter_map_in {A B} (f : A -> B) (p : B -> bool) (q : A -> bool) l : (forall x, In x l -> p (f x) = q x) ->
  filter p (map f l) = map f (filter q l).
Proof.
  induction l as [|x t IH]; intros H; auto. cbn [map filter]. rewrite (H x) by (left; auto).
  destruct (q x); cbn [map]; rewrite IH; auto; intros y Y; apply H; right; auto.
Qed.

(** The columns kept by init_weights_stacked *)
Lemma init_ok {A B} (isna : B -> bool) nan (f : Z -> A -> B) n cs s (ws : series) :
  NoDup (map fst cs) -> (0 < n)%nat -> map fst s = map fst cs ->
  let weight_column c := map zero_nan (snd (product_column NaN (fun a x => nmul (numz a) x) ws c)) in
  let K := filter (fun c => kept (fst c, weight_column c)) cs in
  K <> [] ->
  init_weights_stacked isna (frame_times nan f (mkFrame n cs) s)
    (frame_times NaN (fun a x => nmul (numz a) x) (mkFrame n cs) ws) =
  Ok (mkFrame n (map (product_column nan f s) K),
      mkFrame n (map (fun c => (fst c, zip_with (fun x w => if isna x then NaN else w)
        (snd (product_column nan f s c)) (weight_column c))) K)).
Proof.
  intros N P S wc K KN. unfold init_weights_stacked. rewrite !frame_times_columns. cbn [f_columns f_rows].
  rewrite (no_extra nan n (map fst cs) s) by auto. rewrite app_nil_r.
  replace (n =? 0)%nat with false by (symmetry; apply Nat.eqb_neq; lia).
  assert (CN : cs <> []) by (intros ->; apply KN; auto).
  replace match map (product_column NaN (fun (a : Z) (x : num) => nmul (numz a) x) ws) cs ++ extra_columns NaN n (map fst cs) ws with
          | [] => true | _ :: _ => false end with false by (destruct cs; [congruence|auto]).
  rewrite map_app, filter_app.
  change (fun x : num => if neqb x (Fin 0) then NaN else x) with zero_nan.
  change (fun c : string * list num => existsb (fun x => negb (is_nan x)) (snd c)) with kept.
  rewrite filter_extra, app_nil_r. rewrite map_map.
    change (fun x => (fst (product_column NaN (fun (a : Z) (x0 : num) => nmul (numz a) x0) ws x),
     map zero_nan (snd (product_column NaN (fun (a : Z) (x0 : num) => nmul (numz a) x0) ws x)))) with (fun c : string * list Z => (fst c, wc c)).
  rewrite (filter_map_in (product_column nan f s) _ (fun c => kept (fst c, wc c))).
  2: { intros c I. cbn [product_column fst]. apply (mem_filter_map wc kept cs c N I). }
  fold K. destruct (map (product_column nan f s) K) as [|k0 ks] eqn:MK; [destruct K; [congruence|discriminate]|].
  rewrite <- MK. f_equal. f_equal. f_equal. rewrite map_map. apply map_ext_in. intros c I.
  apply filter_In in I as (I & X). cbn [product_column fst].
  rewrite (dget_filter_map wc kept cs c); auto.
Qed.

(** ** Rows *)

Definition sums (l : list num) (q : Q) : Prop := exists qs, drop_nan l = map Fin qs /\ (qsum qs == q)%Q.

Lemma sums_nil : sums [] 0.
Proof. exists []. split; auto. reflexivity. Qed.

Lemma sums_nan l q : sums l q -> sums (NaN :: l) q.
Proof. intros (qs & D & S). exists qs. auto. Qed.

Lemma sums_fin x l q q' : sums l q -> (q' == x + q)%Q -> sums (Fin x :: l) q'.
Proof.
  intros (qs & D & S) Q. exists (x :: qs). split; [cbn; f_equal; auto|]. unfold qsum in *. cbn [fold_right]. rewrite Q, S. reflexivity.
Qed.

Lemma sums_eq l q q' : sums l q -> (q == q')%Q -> sums l q'.
Proof. intros (qs & D & S) Q. exists qs. split; auto. rewrite S. auto. Qed.

Lemma nsum_fins qs : forall a, exists s, fold_left nadd (map Fin qs) (Fin a) = Fin s /\ (s == a + qsum qs)%Q.
Proof.
  unfold qsum. induction qs as [|x t IH]; intros a; cbn [map fold_left fold_right nadd].
  - exists a. split; auto. ring.
  - destruct (IH (a + x)%Q) as (s & -> & S). exists s. split; auto. rewrite S. ring.
Qed.

Lemma row_sum_ok l q : sums l q -> exists s, row_sum l = Fin s /\ (s == q)%Q.
Proof.
  intros (qs & D & S). unfold row_sum, nsum. rewrite D. destruct (nsum_fins qs 0) as (s & -> & E). exists s. split; auto.
  rewrite E, S. ring.
Qed.

Lemma working_fun r xs v v' : working r xs v -> working r xs v' -> v = v'.
Proof.
  destruct xs as [t|].
  - intros (c & C & V) (c' & C' & V'). rewrite C in C'. injection C' as <-. rewrite V in V'. injection V'. auto.
  - intros (a & A & R) (a' & A' & R'). rewrite A in A'. injection A' as <-. rewrite R in R'. injection R'. auto.
Qed.

Lemma called_fun E r s s' : called E r s -> called E r s' -> s = s'.
Proof. intros C C'. apply called_name in C, C'. rewrite C in C'. injection C'. auto. Qed.

Lemma dget_unweighted (ws : series) s : unweighted ws s ->
  dget s ws = None \/ exists w, dget s ws = Some w /\ (w = NaN \/ same_num w (Fin 0)).
Proof.
  intros U. destruct (dget s ws) as [w|] eqn:D; auto. right. exists w. split; auto. apply U. apply dget_some in D. auto.
Qed.

Lemma kept_iff s l : kept (s, l) = true <-> exists i, (i < List.length l)%nat /\ nth i l NaN <> NaN.
Proof.
  unfold kept. cbn [snd]. rewrite existsb_exists. split.
  - intros (x & I & X). destruct (In_nth _ _ NaN I) as (i & L & <-). exists i. split; auto. intros Y. rewrite Y in X. discriminate.
  - intros (i & L & X). exists (nth i l NaN). split; [apply nth_In; auto|]. destruct (nth i l NaN); auto.
Qed.

(** The column of weights of a rule that is ignored *)
Lemma ignored_column (ws : series) c : unweighted ws (fst c) ->
  kept (fst c, map zero_nan (snd (product_column NaN (fun a x => nmul (numz a) x) ws c))) = false.
Proof.
  intros U. apply not_true_is_false. intros K. apply kept_iff in K as (i & L & X). apply X. clear X.
  rewrite map_length in L. rewrite nth_map with (d := NaN) by auto.
  unfold product_column in *. cbn [snd] in *. destruct (dget_unweighted ws (fst c) U) as [D|(w & D & W)]; rewrite D in *; rewrite map_length in L.
  - rewrite nth_map with (d := 0) by auto. auto.
  - rewrite nth_map with (d := 0) by auto. destruct (nth i (snd c) 0 =? 0); auto.
    destruct W as [->|W]; auto. destruct w; cbn in W; try contradiction. cbn [numz nmul zero_nan neqb].
    unfold zero_nan. cbn [neqb]. replace (Qeq_bool (inject_Z (nth i (snd c) 0) * q) 0) with true; auto.
    symmetry. apply Qeq_bool_iff. rewrite W. ring.
Qed.

(** and of a rule with a weight *)
Lemma weight_column (ws : series) c w i : dget (fst c) ws = Some (Fin w) -> ~ (w == 0)%Q -> bits (snd c) ->
  (i < List.length (snd c))%nat ->
  nth i (map zero_nan (snd (product_column NaN (fun a x => nmul (numz a) x) ws c))) NaN =
  if nth i (snd c) 0 =? 1 then Fin (1 * w) else NaN.
Proof.
  intros D W B I. unfold product_column. rewrite D. cbn [snd].
  rewrite nth_map with (d := NaN) by (rewrite map_length; auto). rewrite nth_map with (d := 0) by auto.
  destruct (nth_bits _ i B) as [X|X]; rewrite X; auto. cbn [Z.eqb Pos.eqb]. unfold zero_nan. cbn [numz nmul neqb].
  replace (Qeq_bool (inject_Z 1 * w) 0) with false; auto. symmetry. apply not_true_is_false. intros Y.
  apply Qeq_bool_iff in Y. apply W. rewrite <- Y. change (inject_Z 1) with 1%Q. ring.
Qed.

Lemma weight_column_kept (ws : series) c w : dget (fst c) ws = Some (Fin w) -> ~ (w == 0)%Q -> bits (snd c) ->
  kept (fst c, map zero_nan (snd (product_column NaN (fun a x => nmul (numz a) x) ws c))) = true <->
  exists i, (i < List.length (snd c))%nat /\ nth i (snd c) 0 = 1.
Proof.
  intros D W B. rewrite kept_iff. rewrite map_length.
  assert (L : List.length (snd (product_column NaN (fun a x => nmul (numz a) x) ws c)) = List.length (snd c)).
  { unfold product_column. rewrite D. apply map_length. }
  rewrite L. split.
  - intros (i & I & X). exists i. split; auto. rewrite (weight_column ws c w i D W B I) in X.
    destruct (nth i (snd c) 0 =? 1) eqn:Y; [apply Z.eqb_eq; auto|congruence].
  - intros (i & I & X). exists i. split; auto. rewrite (weight_column ws c w i D W B I), X. discriminate.
Qed.

Section Sums.
Variables (E : env) (ws : series) (xs : option table) (n : nat) (s : series).
Hypothesis distinct_weights : NoDup (map fst ws).

Definition fits (r : rule) (c : string * list Z) : Prop :=
  called E r (fst c) /\ working r xs (snd c) /\ bits (snd c) /\ List.length (snd c) = n /\ (0 < n)%nat /\
  exists p, getattr r "prediction" = Ok (number p) /\ dget (fst c) s = Some p.

Definition value_cell (c : string * list Z) (i : nat) : num :=
  nth i (snd (product_column NaN (fun a x => nmul (numz a) x) s c)) NaN.

Definition weights_at (c : string * list Z) : list num :=
  map zero_nan (snd (product_column NaN (fun a x => nmul (numz a) x) ws c)).

Definition masked (c : string * list Z) : list num :=
  zip_with (fun x w => if is_nan x then NaN else w) (snd (product_column NaN (fun a x => nmul (numz a) x) s c)) (weights_at c).

Definition keep (c : string * list Z) : bool := kept (fst c, weights_at c).

Lemma product_length (t : series) c : List.length (snd (product_column NaN (fun a x => nmul (numz a) x) t c)) = List.length (snd c).
Proof. unfold product_column. cbn [snd]. destruct (dget (fst c) t); apply map_length. Qed.

(** A rule without ballot has no column left. *)
Lemma none_not_kept r c : fits r c -> casts E ws regression_number xs r None -> keep c = false.
Proof.
  intros (F1 & F2 & F3 & F4 & F5 & _) C. inversion C as [s' S U|s' S G|]; subst.
  - apply ignored_column. rewrite (called_fun E r _ _ F1 S). auto.
  - exfalso. destruct G as [(-> & N)|W].
    + destruct F2 as (a & A & _). congruence.
    + pose proof (working_fun _ _ _ _ F2 W) as X. rewrite X in F5. cbn in F5. lia.
Qed.

(** A rule with a ballot *)
Lemma ballot_cells r c b : fits r c -> casts E ws regression_number xs r (Some b) ->
  b_active b = snd c /\
  (keep c = true <-> exists i, (i < n)%nat /\ active i b) /\
  forall i, (i < n)%nat ->
    value_cell c i = (if nth i (snd c) 0 =? 1 then Fin (1 * b_value b) else NaN) /\
    nth i (masked c) NaN = if nth i (snd c) 0 =? 1 then Fin (1 * b_weight b) else NaN.
Proof.
  intros (F1 & F2 & F3 & F4 & F5 & p & P & D) C. inversion C as [| |s' w q v S I W (_ & Q & K & _ & _)]; subst. cbn [b_active b_value b_weight].
  assert (X : v = snd c) by (apply (working_fun r xs); auto). subst v. split; auto.
  rewrite Q in P. injection P as <-. pose proof (called_fun E r _ _ S F1) as Y. subst s'.
  pose proof (dget_in _ _ _ distinct_weights I) as DW. split.
  - unfold keep, weights_at. rewrite (weight_column_kept ws c w); auto. unfold active. cbn [b_active]. tauto.
  - intros i Hi. assert (V : value_cell c i = if nth i (snd c) 0 =? 1 then Fin (1 * q) else NaN).
    { unfold value_cell, product_column. rewrite D. cbn [snd].
      rewrite nth_map with (d := 0) by auto. destruct (nth_bits _ i F3) as [Z|Z]; rewrite Z; auto. }
    split; auto. unfold masked. rewrite zip_nth with (a := NaN) (b := NaN);
      [|unfold weights_at; rewrite map_length, !product_length; auto|rewrite product_length; auto].
    fold (value_cell c i). rewrite V. unfold weights_at. rewrite (weight_column ws c w i); auto.
    destruct (nth i (snd c) 0 =? 1); auto.
Qed.

Lemma weight_cons {A} i (b : ballot A) bs : weight i (b :: bs) = if nth i (b_active b) 0 =? 1 then (b_weight b + weight i bs)%Q else weight i bs.
Proof. unfold weight, at_row. cbn [filter]. destruct (nth i (b_active b) 0 =? 1); auto. Qed.

Lemma total_cons i (b : ballot Q) bs :
  total i (b :: bs) = if nth i (b_active b) 0 =? 1 then (b_weight b * b_value b + total i bs)%Q else total i bs.
Proof. unfold total, at_row. cbn [filter]. destruct (nth i (b_active b) 0 =? 1); auto. Qed.

Lemma row_sums rules columns bs : Forall2 fits rules columns -> collected (casts E ws regression_number xs) rules bs ->
  forall i, (i < n)%nat ->
  sums (map (fun c => nth i (masked c) NaN) (filter keep columns)) (weight i bs) /\
  sums (map (fun c => nmul (value_cell c i) (nth i (masked c) NaN)) (filter keep columns)) (total i bs).
Proof.
  intros F. revert bs. induction F as [|r c rules columns F _ IH]; intros bs C i I.
  - inversion C; subst. split; apply sums_nil.
  - inversion C as [|r' t bs' Cr Ct|r' t b bs' Cr Ct]; subst.
    + cbn [filter]. rewrite (none_not_kept r c); auto.
    + destruct (ballot_cells r c b F Cr) as (A & K & V). destruct (IH bs' Ct i I) as (S1 & S2).
      cbn [filter]. rewrite weight_cons, total_cons, A. destruct (V i I) as (V1 & V2).
      destruct (keep c) eqn:Kc.
      * cbn [map]. rewrite V1, V2. destruct (nth i (snd c) 0 =? 1).
        -- split; [eapply sums_fin; eauto; ring|]. cbn [nmul]. eapply sums_fin; eauto. ring.
        -- split; apply sums_nan; auto.
      * destruct (nth i (snd c) 0 =? 1) eqn:Y; auto. exfalso. apply Z.eqb_eq in Y.
        assert (false = true) by (apply K; exists i; split; auto; unfold active; rewrite A; auto). discriminate.
Qed.

Lemma some_kept rules columns bs : Forall2 fits rules columns -> collected (casts E ws regression_number xs) rules bs ->
  somebody n bs -> filter keep columns <> [].
Proof.
  intros F. revert bs. induction F as [|r c rules columns F _ IH]; intros bs C (b & i & Ib & I & A).
  - inversion C; subst. contradiction.
  - inversion C as [|r' t bs' Cr Ct|r' t b' bs' Cr Ct]; subst; cbn [filter].
    + rewrite (none_not_kept r c); auto. apply (IH bs); auto. exists b, i. auto.
    + destruct (ballot_cells r c b' F Cr) as (A' & K & V). destruct Ib as [->|Ib].
      * replace (keep c) with true; [discriminate|]. symmetry. apply K. eauto.
      * destruct (keep c); [discriminate|]. apply (IH bs'); auto. exists b, i. auto.
Qed.

End Sums.

(** ** The predictions *)

Lemma numbers_listed E rules columns : Forall2 (fun r c => called E r (fst c)) rules columns -> NoDup (map fst columns) ->
  rules <> [] -> predicts_numbers rules ->
  exists l s, by_name E prediction rules = Ok l /\ number_series l = Ok s /\ map fst s = map fst (columns : list (string * list Z)) /\
    Forall2 (fun r c => exists p, getattr r "prediction" = Ok (number p) /\ dget (fst c) s = Some p) rules columns.
Proof.
  intros F N R P.
  assert (X : exists ps, Forall2 (fun r p => called E r (fst p) /\ getattr r "prediction" = Ok (number (snd p))) rules ps /\
    map fst ps = map fst columns).
  { clear N R. induction F as [|r c rules columns C _ IH].
    - exists []. auto.
    - destruct IH as (ps & F & M); [intros r' I; apply P; right; auto|]. destruct (P r) as (p & Q); [left; auto|].
      exists ((fst c, p) :: ps). split; [constructor; auto|]. cbn. f_equal. auto. }
  destruct X as (ps & FP & M). exists (map (fun p => (fst p, number (snd p))) ps), ps.
  assert (NP : NoDup (map fst ps)) by (rewrite M; auto). split; [|split; [|split; auto]].
  - apply by_name_ok; [|rewrite map_map; auto]. apply forall2_map. cbn [fst snd].
    eapply forall2_weaken; [|exact FP]. intros r p (C & Q). rewrite prediction_attr in Q. split; auto. apply called_name. auto.
  - unfold number_series. replace (forallb _ _) with false.
    + rewrite map_map. clear -FP. cbn. induction FP as [|r [a b] rules ps _ _ IH]; auto. cbn [map rseq rbind fst snd]. rewrite IH. auto.
    + destruct ps as [|p ps]; [inversion FP; subst; congruence|]. auto.
  - clear R P F.
    assert (Z : forall p, In p ps -> dget (fst p) ps = Some (snd p)) by (intros [a b] I; apply dget_in; auto).
    assert (G : forall qs cs, incl qs ps -> map fst qs = map fst cs ->
      Forall2 (fun r p => called E r (fst p) /\ getattr r "prediction" = Ok (number (snd p))) rules qs ->
      Forall2 (fun r (c : string * list BinNums.Z) => exists p, getattr r "prediction" = Ok (number p) /\ dget (fst c) ps = Some p) rules cs).
    { clear FP. intros qs cs I Mq FQ. revert cs I Mq. induction FQ as [|r q rules qs (_ & Q) _ IH]; intros [|c cs] I Mq; try discriminate; constructor.
      - exists (snd q). split; auto. cbn in Mq. injection Mq as Mq _. rewrite <- Mq. apply Z. apply I. left. auto.
      - apply IH; [intros x X; apply I; right; auto|]. cbn in Mq. injection Mq. auto. }
    apply (G ps columns); auto. intros x; auto.
Qed.

Lemma forall2_both {A B} (P Q : A -> B -> Prop) l m : Forall2 P l m -> Forall2 Q l m -> Forall2 (fun a b => P a b /\ Q a b) l m.
Proof. intros F. induction F as [|a b l m p _ IH]; intros G; inversion G; subst; constructor; auto. Qed.

Lemma row_line {A} (g : string * list Z -> string * list A) d n K i :
  line d (mkFrame n (map g K)) i = map (fun c => nth i (snd (g c)) d) K.
Proof. unfold line. cbn [f_columns]. rewrite map_map. auto. Qed.

Lemma zip_map {A B C D} (f : B -> C -> D) (g : A -> B) (h : A -> C) l : zip_with f (map g l) (map h l) = map (fun x => f (g x) (h x)) l.
Proof. unfold zip_with. induction l as [|x t IH]; auto. cbn [map combine fst snd]. f_equal. auto. Qed.

(** A mean from exact sums *)
Lemma mean_sums i bs t w : (exists q, t = Fin q /\ (q == total i bs)%Q) -> (exists q, w = Fin q /\ (q == weight i bs)%Q) ->
  weighs i bs -> is_mean i bs (ndiv t w).
Proof.
  intros (q & -> & Q) (v & -> & V) W. unfold is_mean. destruct (at_row i bs) as [|b u] eqn:X.
  - left. split; [apply at_row_none; auto|]. cbn [ndiv].
    assert (V0 : (v == 0)%Q) by (rewrite V; unfold weight; rewrite X; reflexivity).
    assert (Q0 : (q == 0)%Q) by (rewrite Q; unfold total; rewrite X; reflexivity).
    replace (Qeq_bool v 0) with true by (symmetry; apply Qeq_bool_iff; auto). unfold signed_inf.
    replace (Qeq_bool q 0) with true by (symmetry; apply Qeq_bool_iff; auto). auto.
  - right. split; [apply at_row_some; congruence|]. destruct W as [W|W]; [congruence|]. cbn [ndiv].
    destruct (Qeq_bool v 0) eqn:Y; [apply Qeq_bool_iff in Y; rewrite V in Y; contradiction|].
    eexists. split; [reflexivity|]. rewrite Q, V. reflexivity.
Qed.

Lemma vectors_called E xs rules n columns : vectors E xs rules n columns ->
  Forall2 (fun r c => called E r (fst c)) rules columns /\ NoDup (map fst columns).
Proof. intros (F & N & _). split; auto. eapply forall2_weaken; [|exact F]. cbv beta. intros r c (H & _). exact H. Qed.

Lemma collected_nonempty {A} (C : rule -> option (ballot A) -> Prop) rules bs n : collected C rules bs -> somebody n bs -> rules <> [].
Proof. intros H (b & i & I & _) ->. inversion H; subst. contradiction. Qed.

Lemma vectors_fit E xs rules n columns s : vectors E xs rules n columns ->
  Forall2 (fun r c => exists p, getattr r "prediction" = Ok (number p) /\ dget (fst c) s = Some p) rules columns ->
  Forall2 (fits E xs n s) rules columns.
Proof.
  intros (F & _ & P) G. eapply forall2_weaken; [|exact (forall2_both _ _ _ _ F G)].
  intros r c ((X1 & X2 & X3 & X4) & X5). repeat (split; auto).
Qed.

Lemma product_not_empty {A B} (nan : B) (f : Z -> A -> B) n cs s : cs <> [] -> (0 < n)%nat ->
  is_empty (frame_times nan f (mkFrame n cs) s) = false.
Proof.
  intros C N. unfold is_empty. rewrite frame_times_columns. cbn [f_columns f_rows]. destruct cs; [congruence|]. cbn [map app].
  apply Nat.eqb_neq. lia.
Qed.

Lemma vectors_nonempty E xs rules n columns : vectors E xs rules n columns -> rules <> [] -> columns <> [].
Proof. intros (F & _) R ->. inversion F. congruence. Qed.

Lemma number_not_text {A} p (x y : A) : match number p with OVal (XText _) => x | _ => y end = y.
Proof. reflexivity. Qed.

Lemma weighted_stacked E shared rules st xs ws bs n :
  stacks E xs rules n st -> predicts_numbers rules -> NoDup (map fst ws) ->
  collected (casts E ws regression_number xs) rules bs -> somebody n bs ->
  exists l, fst (predict_rules E true shared (Some KRegression) rules (Some st) xs (Some (WSeries ws))) = Ok (Numbers l) /\
    each_row n NaN l (fun i x => weighs i bs -> is_mean i bs x).
Proof.
  intros (columns & V & X) P N C SB. pose proof (collected_nonempty _ _ _ _ C SB) as RN.
  rewrite (stacked_frame E rules n st xs KRegression (Some (WSeries ws)) shared columns); auto.
  destruct (vectors_called _ _ _ _ _ V) as (F & NC).
  destruct (numbers_listed E rules columns F NC RN P) as (l & s & L1 & L2 & L3 & L4).
  pose proof (vectors_fit _ _ _ _ _ _ V L4) as FF.
  unfold predict_stacked. rewrite L1. cbn [rbind]. destruct rules as [|r rules]; [congruence|].
  destruct (P r) as (p & Q); [left; auto|]. rewrite prediction_attr in Q. rewrite Q. cbn [rbind].
  rewrite number_not_text. rewrite L2. cbn [rbind].
  assert (n0 : (0 < n)%nat) by (destruct V as (_ & _ & V); auto).
  rewrite product_not_empty; auto; [|eapply vectors_nonempty; eauto]. cbn [weights_of rbind].
  unfold weighted_regressor_stacked. rewrite init_ok; auto.
  2: { apply (some_kept E ws xs n s N (r :: rules) columns bs); auto. }
  cbn [rbind rmap f_rows]. eexists. split; [reflexivity|]. split; [rewrite map_length, seq_length; auto|].
  intros i I W. rewrite nth_map with (d := O) by (rewrite seq_length; auto). rewrite seq_nth by auto. cbn [Nat.add].
  rewrite !row_line. rewrite zip_map.
  destruct (row_sums E ws xs n s N (r :: rules) columns bs FF C i I) as (S1 & S2).
  apply mean_sums; auto; apply row_sum_ok; [exact S2|exact S1].
Qed.

(** ** Without weights *)

Section Means.
Variables (E : env) (xs : option table) (n : nat) (s : series).

Lemma one_cells r c b : fits E xs n s r c -> casts_one regression_number xs r (Some b) ->
  b_active b = snd c /\ b_weight b = 1%Q /\
  forall i, (i < n)%nat -> value_cell s c i = if nth i (snd c) 0 =? 1 then Fin (1 * b_value b) else NaN.
Proof.
  intros (F1 & F2 & F3 & F4 & F5 & p & P & D) C. inversion C as [|q v (_ & Q & K & _ & _)]; subst. cbn [b_active b_value b_weight].
  assert (X : v = snd c) by (apply (working_fun r xs); auto). subst v. split; auto. split; auto.
  rewrite Q in P. injection P as <-. intros i Hi. unfold value_cell, product_column. rewrite D. cbn [snd].
  rewrite nth_map with (d := 0) by auto. destruct (nth_bits _ i F3) as [Z|Z]; rewrite Z; auto.
Qed.

Lemma one_none r c : fits E xs n s r c -> casts_one regression_number xs r None -> False.
Proof.
  intros (F1 & F2 & F3 & F4 & F5 & _) C. inversion C as [G|]; subst. destruct G as [(-> & N)|W].
  - destruct F2 as (a & A & _). congruence.
  - pose proof (working_fun _ _ _ _ F2 W) as X. rewrite X in F5. cbn in F5. lia.
Qed.

Lemma row_means rules columns bs : Forall2 (fits E xs n s) rules columns -> collected (casts_one regression_number xs) rules bs ->
  forall i, (i < n)%nat -> exists qs, drop_nan (map (fun c => value_cell s c i) columns) = map Fin qs /\
    (qsum qs == total i bs)%Q /\ (inject_Z (Z.of_nat (List.length qs)) == weight i bs)%Q.
Proof.
  intros F. revert bs. induction F as [|r c rules columns F _ IH]; intros bs C i I.
  - inversion C; subst. exists []. split; auto. split; reflexivity.
  - inversion C as [|r' t bs' Cr Ct|r' t b bs' Cr Ct]; subst; [destruct (one_none r c); auto|].
    destruct (one_cells r c b F Cr) as (A & W & V). destruct (IH bs' Ct i I) as (qs & S0 & S1 & S2).
    cbn [map]. rewrite (V i I), weight_cons, total_cons, A, W. destruct (nth i (snd c) 0 =? 1).
    + exists ((1 * b_value b)%Q :: qs). split; [cbn; f_equal; auto|]. split.
      * unfold qsum in *. cbn [fold_right]. rewrite S1. ring.
      * cbn [List.length]. rewrite Nat2Z.inj_succ. unfold Z.succ. rewrite inject_Z_plus, S2. change (inject_Z 1) with 1%Q. ring.
    + exists qs. auto.
Qed.

End Means.

Lemma one_weighs i bs : (forall b : ballot Q, In b bs -> b_weight b = 1%Q) -> weighs i bs.
Proof.
  intros H. unfold weighs. destruct (at_row i bs) eqn:X; auto. right. rewrite (weight_count i bs H), X. cbn [List.length].
  intros Z. change 0%Q with (inject_Z 0) in Z. rewrite inject_Z_injective in Z. lia.
Qed.

Lemma equal_stacked E shared rules st xs bs n :
  stacks E xs rules n st -> rules <> [] -> predicts_numbers rules -> collected (casts_one regression_number xs) rules bs ->
  exists l, fst (predict_rules E true shared (Some KRegression) rules (Some st) xs None) = Ok (Numbers l) /\
    each_row n NaN l (fun i x => is_mean i bs x).
Proof.
  intros (columns & V & X) RN P C.
  rewrite (stacked_frame E rules n st xs KRegression None shared columns); auto.
  destruct (vectors_called _ _ _ _ _ V) as (F & NC).
  destruct (numbers_listed E rules columns F NC RN P) as (l & s & L1 & L2 & L3 & L4).
  pose proof (vectors_fit _ _ _ _ _ _ V L4) as FF.
  unfold predict_stacked. rewrite L1. cbn [rbind]. destruct rules as [|r rules]; [congruence|].
  destruct (P r) as (p & Q); [left; auto|]. rewrite prediction_attr in Q. rewrite Q. cbn [rbind].
  rewrite number_not_text. rewrite L2. cbn [rbind].
  assert (n0 : (0 < n)%nat) by (destruct V as (_ & _ & V); auto).
  rewrite product_not_empty; auto; [|eapply vectors_nonempty; eauto].
  unfold equal_regressor_stacked, by_rows. rewrite frame_times_columns. rewrite no_extra by auto. rewrite app_nil_r. cbn [f_rows].
  eexists. split; [reflexivity|]. split; [rewrite map_length, seq_length; auto|].
  intros i I. rewrite nth_map with (d := O) by (rewrite seq_length; auto). rewrite seq_nth by auto. cbn [Nat.add].
  rewrite row_line. destruct (row_means E xs n s (r :: rules) columns bs FF C i I) as (qs & S0 & S1 & S2).
  unfold nanmean, nmean, nsum. change (fun c => nth i (snd (product_column NaN (fun (a : Z) (x : num) => nmul (numz a) x) s c)) NaN) with
    (fun c : string * list Z => value_cell s c i). rewrite S0.
  destruct (nsum_fins qs 0) as (t & T1 & T2). rewrite T1. unfold nat_num. rewrite map_length. apply mean_sums.
  - exists t. split; auto. rewrite T2, S1. ring.
  - eexists. split; [reflexivity|]. auto.
  - apply one_weighs. intros b B. apply (one_weight _ _ _ _ C b B).
Qed.

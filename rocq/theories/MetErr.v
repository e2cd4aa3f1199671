(** Proofs about the regression criteria and the z-score. *)
From Coq Require Import List ZArith QArith Qabs Bool String Ascii Lia Lqa.
From Coq Require Import List.
From Coq Require Import Sorting.Sorted Sorting.Permutation.
From Verif Require Import Base Num Arith CondModel CondSpec CondBase MetModel MetSpec MetReg.
Import ListNotations.
Open Scope Z_scope.

(** ** Mean errors *)

Definition errors (f : num -> num) (p y : list num) : list num :=
  map (fun c => f (nsub (fst c) (snd c))) (combine p y).

Lemma residuals_length p y rs : residuals p y rs -> List.length p = List.length y.
Proof. induction 1; cbn; auto. Qed.

Lemma nsub_nan p q : p = NaN \/ q = NaN -> nsub p q = NaN.
Proof. intros [-> | -> ]; [reflexivity|]. destruct p; reflexivity. Qed.

Lemma errors_values f g p y rs :
  f NaN = NaN -> (forall q, f (Fin q) = Fin (g q)) -> residuals p y rs -> values (errors f p y) (map g rs).
Proof.
  intros N G R. induction R as [|p q ps qs l H R IH|a b ps qs l R IH].
  - constructor.
  - unfold errors. cbn [combine map fst snd]. rewrite (nsub_nan p q H), N. constructor. exact IH.
  - unfold errors. cbn [combine map fst snd]. change (nsub (Fin a) (Fin b)) with (Fin (a - b)).
    rewrite G. constructor. exact IH.
Qed.

Lemma mean_error_series f p y :
  List.length p = List.length y -> mean_error f (VSeries p) y = Ok (MNum (nanmean (errors f p y))).
Proof. intros L. cbn. rewrite L, Nat.eqb_refl. auto. Qed.

Lemma mse_one p y rs : residuals p y rs ->
  exists m, mse_function (VSeries p) y = Ok (MNum m) /\ mean_or_nan (map (fun r => r * r)%Q rs) m.
Proof.
  intros R. unfold mse_function. rewrite (mean_error_series _ p y (residuals_length p y rs R)).
  eexists. split; [reflexivity|]. apply nanmean_values. apply errors_values; auto.
Qed.

Lemma mae_one p y rs : residuals p y rs ->
  exists m, mae_function (VSeries p) y = Ok (MNum m) /\ mean_or_nan (map Qabs rs) m.
Proof.
  intros R. unfold mae_function. rewrite (mean_error_series _ p y (residuals_length p y rs R)).
  eexists. split; [reflexivity|]. apply nanmean_values. apply errors_values; auto.
Qed.

Lemma mean_nonneg qs m : average qs m -> (forall q, In q qs -> (0 <= q)%Q) -> (0 <= m)%Q.
Proof.
  intros (N & A) H. assert (P := size_pos qs N).
  assert (T : (0 <= total qs)%Q).
  { clear -H. induction qs as [|q t IH]; [cbn; lra|]. rewrite total_cons.
    specialize (IH (fun x h => H x (or_intror h))). specialize (H q (or_introl eq_refl)). lra. }
  rewrite <- A in T. assert (T' : (0 * size qs <= m * size qs)%Q) by lra.
  apply Qmult_le_r in T'; auto.
Qed.

Lemma total_zero qs : (forall q, In q qs -> (0 <= q)%Q) -> (total qs == 0)%Q -> forall q, In q qs -> (q == 0)%Q.
Proof.
  induction qs as [|x t IH]; intros H E q Hq; [contradiction|]. rewrite total_cons in E.
  assert (T : (0 <= total t)%Q).
  { clear -H. assert (H' : forall q, In q t -> (0 <= q)%Q) by (intros; apply H; right; auto). clear H.
    induction t as [|q t IH]; [cbn; lra|]. rewrite total_cons.
    specialize (IH (fun x h => H' x (or_intror h))). specialize (H' q (or_introl eq_refl)). lra. }
  assert (X := H x (or_introl eq_refl)). destruct Hq as [<-|Hq]; [lra|].
  apply IH; auto; [intros; apply H; right; auto|lra].
Qed.

Lemma total_all_zero qs : (forall q, In q qs -> (q == 0)%Q) -> (total qs == 0)%Q.
Proof.
  induction qs as [|x t IH]; intros H; [reflexivity|]. rewrite total_cons, IH by (intros; apply H; right; auto).
  rewrite (H x (or_introl eq_refl)). ring.
Qed.

Lemma mean_zero qs m : average qs m -> (forall q, In q qs -> (0 <= q)%Q) ->
  ((m == 0)%Q <-> forall q, In q qs -> (q == 0)%Q).
Proof.
  intros (N & A) H. assert (P := size_pos qs N). split.
  - intros E. apply total_zero; auto. rewrite <- A, E. ring.
  - intros Z. assert (T := total_all_zero qs Z). rewrite <- A in T. apply Qmult_integral in T.
    destruct T; auto. lra.
Qed.

Lemma square_nonneg (r : Q) : (0 <= r * r)%Q.
Proof. destruct (Qlt_le_dec r 0); nra. Qed.

Lemma mean_or_nan_fin qs x : mean_or_nan qs (Fin x) -> average qs x.
Proof. destruct qs; cbn [mean_or_nan]; [discriminate|]. intros (m & E & A). congruence. Qed.

Lemma mse_sign p y rs m : residuals p y rs -> mse_function (VSeries p) y = Ok (MNum (Fin m)) ->
  (0 <= m)%Q /\ ((m == 0)%Q <-> forall r, In r rs -> (r == 0)%Q).
Proof.
  intros R E. destruct (mse_one p y rs R) as (x & E' & M). rewrite E in E'. injection E' as <-.
  apply mean_or_nan_fin in M.
  assert (N : forall q, In q (map (fun r => r * r)%Q rs) -> (0 <= q)%Q).
  { intros q H. apply in_map_iff in H as (r & <- & _). apply square_nonneg. }
  split; [apply (mean_nonneg _ _ M N)|]. rewrite (mean_zero _ _ M N). split.
  - intros H r Hr. assert (Z : (r * r == 0)%Q) by (apply H; apply in_map_iff; exists r; auto).
    apply Qmult_integral in Z. tauto.
  - intros H q Hq. apply in_map_iff in Hq as (r & <- & Hr). rewrite (H r Hr). ring.
Qed.

Lemma mae_sign p y rs m : residuals p y rs -> mae_function (VSeries p) y = Ok (MNum (Fin m)) ->
  (0 <= m)%Q /\ ((m == 0)%Q <-> forall r, In r rs -> (r == 0)%Q).
Proof.
  intros R E. destruct (mae_one p y rs R) as (x & E' & M). rewrite E in E'. injection E' as <-.
  apply mean_or_nan_fin in M.
  assert (N : forall q, In q (map Qabs rs) -> (0 <= q)%Q).
  { intros q H. apply in_map_iff in H as (r & <- & _). apply Qabs_nonneg. }
  split; [apply (mean_nonneg _ _ M N)|]. rewrite (mean_zero _ _ M N). split.
  - intros H r Hr. assert (Z : (Qabs r == 0)%Q) by (apply H; apply in_map_iff; exists r; auto).
    pose proof (Qle_Qabs r). pose proof (Qle_Qabs (- r)) as X. rewrite Qabs_opp in X. lra.
  - intros H q Hq. apply in_map_iff in Hq as (r & <- & Hr). rewrite (H r Hr). reflexivity.
Qed.

(** ** Tables *)

Lemma mean_error_frame f n cols y : n = List.length y ->
  (forall k v, In (k, v) cols -> List.length v = n) ->
  exists s, mean_error f (VFrame n cols) y = Ok (MSeries s) /\
    Forall2 (fun c e => fst c = fst e /\ mean_error f (VSeries (snd c)) y = Ok (MNum (snd e))) cols s.
Proof.
  intros -> L. eexists. split; [unfold mean_error; rewrite Nat.eqb_refl; reflexivity|].
  apply Forall2_map_r. intros (k, v) H. cbn [fst snd]. split; auto.
  rewrite mean_error_series; auto. apply (L k v H).
Qed.

Lemma rmap_divided_frame {C : Type} (R : C -> list num) d (m : res metric) (one : list num -> res metric) (cols : list (string * list num)) s :
  m = Ok (MSeries s) ->
  Forall2 (fun c e => fst c = fst e /\ one (snd c) = Ok (MNum (snd e))) cols s ->
  exists s', rmap (fun m => divided m d) m = Ok (MSeries s') /\
    Forall2 (fun c e => fst c = fst e /\ rmap (fun m => divided m d) (one (snd c)) = Ok (MNum (snd e))) cols s'.
Proof.
  intros -> F. cbn [rmap divided]. eexists. split; [reflexivity|]. clear R.
  induction F as [|c e cols s (A & B) F IH]; cbn [map]; constructor; auto. cbn [fst snd]. split; auto.
  rewrite B. auto.
Qed.

Lemma criterion_frame m n cols y : n = List.length y ->
  (forall k v, In (k, v) cols -> List.length v = n) ->
  (exists e, calc_regression_criterion (VFrame n cols) y m = Err e /\
     forall v, calc_regression_criterion (VSeries v) y m = Err e) \/
  exists s, calc_regression_criterion (VFrame n cols) y m = Ok (MSeries s) /\
    Forall2 (fun c e => fst c = fst e /\
      calc_regression_criterion (VSeries (snd c)) y m = Ok (MNum (snd e))) cols s.
Proof.
  intros N L. unfold calc_regression_criterion. set (k := lower _). clearbody k.
  destruct (mean_error_frame nsquare n cols y N L) as (s1 & E1 & F1).
  destruct (mean_error_frame nabs n cols y N L) as (s2 & E2 & F2).
  destruct (str_eqb k "mse"); [right; eauto|].
  destruct (str_eqb k "mse_norm").
  { right. apply (rmap_divided_frame (C := unit) (fun _ => []) _ _ (fun v => mse_function (VSeries v) y) cols s1); auto. }
  destruct (str_eqb k "mae"); [right; eauto|].
  destruct (str_eqb k "mae_norm").
  { right. apply (rmap_divided_frame (C := unit) (fun _ => []) _ _ (fun v => mae_function (VSeries v) y) cols s2); auto. }
  destruct (str_eqb k "aae").
  { right. apply (rmap_divided_frame (C := unit) (fun _ => []) _ _ (fun v => mae_function (VSeries v) y) cols s2); auto. }
  left. exists EValue. auto.
Qed.

(** ** Best constant *)

Lemma predicts_residuals c : forall act y l p qs,
  picks act y l -> predicts c act p -> values l qs -> residuals p y (map (fun q => c - q)%Q qs).
Proof.
  intros act y l p qs P. revert p qs. induction P as [|a x act y l N P IH|x act y l P IH]; intros p qs C V.
  - inversion C; subst. inversion V; subst. constructor.
  - inversion C; subst; [|congruence]. inversion V; subst.
    + apply res_skip; auto.
    + cbn [map]. apply res_both. auto.
  - inversion C as [|? ? ? N ? E|? ? ? E]; subst; [congruence|]. apply res_skip; auto.
Qed.

Lemma total_map_plus {A} (f g : A -> Q) l :
  (total (map (fun x => f x + g x)%Q l) == total (map f l) + total (map g l))%Q.
Proof. induction l as [|x t IH]; [reflexivity|]. cbn [map]. rewrite !total_cons, IH. ring. Qed.

Lemma total_map_scale {A} (k : Q) (f : A -> Q) l : (total (map (fun x => k * f x)%Q l) == k * total (map f l))%Q.
Proof. induction l as [|x t IH]; [cbn; ring|]. cbn [map]. rewrite !total_cons, IH. ring. Qed.

Lemma total_map_ext {A} (f g : A -> Q) l : (forall x, (f x == g x)%Q) -> (total (map f l) == total (map g l))%Q.
Proof. intros H. induction l as [|x t IH]; [reflexivity|]. cbn [map]. rewrite !total_cons, IH, H. reflexivity. Qed.

Lemma total_const {A} (k : Q) (l : list A) : (total (map (fun _ => k) l) == k * size l)%Q.
Proof. induction l as [|x t IH]; [rewrite (@size_nil A); cbn; ring|]. cbn [map]. rewrite total_cons, IH, size_cons. ring. Qed.

(** Sum of squares around [c]. *)
Lemma deviations_shift qs m c : average qs m ->
  (total (map (fun q => (c - q) * (c - q)) qs) == deviations qs m + (c - m) * (c - m) * size qs)%Q.
Proof.
  intros (N & A). unfold deviations.
  assert (E : (total (map (fun q => (c - q) * (c - q)) qs) ==
     total (map (fun q => (q - m) * (q - m) + ((c - m) * (c + m) + (- (2 # 1) * (c - m)) * q)) qs))%Q).
  { apply total_map_ext. intros x. ring. }
  rewrite E, total_map_plus, total_map_plus, total_const, total_map_scale, map_id, <- A. ring.
Qed.

Lemma best_constant act y l qs m c pm pc em ec :
  picks act y l -> values l qs -> average qs m -> predicts m act pm -> predicts c act pc ->
  mse_function (VSeries pm) y = Ok (MNum (Fin em)) -> mse_function (VSeries pc) y = Ok (MNum (Fin ec)) ->
  (em <= ec)%Q /\ ((em == ec)%Q -> (c == m)%Q).
Proof.
  intros P V A Cm Cc Em Ec.
  destruct (mse_one pm y _ (predicts_residuals m act y l pm qs P Cm V)) as (xm & Em' & Mm).
  destruct (mse_one pc y _ (predicts_residuals c act y l pc qs P Cc V)) as (xc & Ec' & Mc).
  rewrite Em in Em'. injection Em' as <-. rewrite Ec in Ec'. injection Ec' as <-.
  apply mean_or_nan_fin in Mm, Mc. rewrite map_map in Mm, Mc.
  destruct Mm as (_ & Mm), Mc as (_ & Mc). rewrite size_map in Mm, Mc.
  rewrite (deviations_shift qs m c A) in Mc. rewrite (deviations_shift qs m m A) in Mm.
  assert (S := size_pos qs (proj1 A)).
  assert (X : ((ec - em) * size qs == (c - m) * (c - m) * size qs)%Q).
  { setoid_replace ((ec - em) * size qs)%Q with (ec * size qs - em * size qs)%Q by ring. rewrite Mc, Mm. ring. }
  assert (Y : (((ec - em) - (c - m) * (c - m)) * size qs == 0)%Q).
  { setoid_replace (((ec - em) - (c - m) * (c - m)) * size qs)%Q
      with ((ec - em) * size qs - (c - m) * (c - m) * size qs)%Q by ring. rewrite X. ring. }
  apply Qmult_integral in Y. destruct Y as [Y|Y]; [|lra].
  pose proof (square_nonneg (c - m)) as SQ. split; [lra|]. intros E.
  assert (Z : ((c - m) * (c - m) == 0)%Q) by lra. apply Qmult_integral in Z. destruct Z; lra.
Qed.

(** ** Normalised criteria *)

Lemma average_exists qs : qs <> [] -> exists m, nmean (map Fin qs) = Fin m /\ average qs m.
Proof. intros N. pose proof (nmean_fin qs) as M. destruct qs; [congruence|]. exact M. Qed.

Lemma nmean_map_fin (g : Q -> Q) (f : num -> num) qs :
  (forall q, f (Fin q) = Fin (g q)) -> nmean (map f (map Fin qs)) = nmean (map Fin (map g qs)).
Proof. intros H. f_equal. rewrite !map_map. apply map_ext. auto. Qed.

Lemma variance_of_norm ys m v : average ys m -> average (map (fun q => (m - q) * (m - q))%Q ys) v -> variance 0 ys v.
Proof.
  intros A (_ & V). exists m. split; auto. rewrite size_map in V.
  setoid_replace (size ys - inject_Z 0)%Q with (size ys) by (unfold Qminus; change (- inject_Z 0)%Q with 0%Q; ring).
  rewrite V. unfold deviations. apply total_map_ext. intros x. ring.
Qed.

Lemma variance0_unique ys v w : variance 0 ys v -> variance 0 ys w -> (v == w)%Q.
Proof.
  intros V W. apply (variance_unique 0 ys ys); auto.
  - clear. induction ys; constructor; auto. reflexivity.
  - destruct V as (m & (N & _) & _). apply (size_pos ys N).
Qed.

Lemma mse_norm_one p ys rs v : residuals p (map Fin ys) rs -> rs <> [] -> variance 0 ys v -> ~ (v == 0)%Q ->
  exists e r, mse_function (VSeries p) (map Fin ys) = Ok (MNum (Fin e)) /\
    mse_norm (VSeries p) (map Fin ys) = Ok (MNum (Fin r)) /\ (r * v == e)%Q.
Proof.
  intros R N V NZ. destruct (mse_one p _ rs R) as (x & E & M).
  destruct rs as [|r0 rs]; [congruence|]. cbn [map mean_or_nan] in M. destruct M as (e & -> & _).
  assert (Ny : ys <> []) by (destruct V as (m & (N' & _) & _); auto).
  unfold mse_norm. rewrite E. cbn [rmap divided].
  destruct (average_exists ys Ny) as (m & Em & A). rewrite Em.
  rewrite (nmean_map_fin (fun q => (m + - q) * (m + - q))%Q) by reflexivity.
  destruct (average_exists (map (fun q => (m + - q) * (m + - q))%Q ys)) as (w & Ew & W).
  { intros X. apply map_eq_nil in X. contradiction. }
  rewrite Ew. assert (W' := variance_of_norm ys m w A W). assert (U := variance0_unique ys v w V W').
  rewrite ndiv_fin by (rewrite <- U; auto). exists e, (e / w)%Q. repeat split; auto.
  rewrite U. field. rewrite <- U. auto.
Qed.

Lemma mse_norm_mean ys m v : average ys m -> variance 0 ys v -> ~ (v == 0)%Q ->
  exists r, mse_norm (VSeries (map (fun _ => Fin m) ys)) (map Fin ys) = Ok (MNum (Fin r)) /\ (r == 1)%Q.
Proof.
  intros A V NZ.
  assert (R : residuals (map (fun _ => Fin m) ys) (map Fin ys) (map (fun q => m - q)%Q ys)).
  { clear. induction ys; cbn [map]; [apply res_nil|apply res_both; auto]. }
  assert (Ny : ys <> []) by (apply A).
  destruct (mse_norm_one _ ys _ v R) as (e & r & E & E' & X); auto.
  { intros X. apply map_eq_nil in X. contradiction. }
  exists r. split; auto.
  destruct (mse_one _ _ _ R) as (x & E2 & M). rewrite E in E2. injection E2 as <-.
  apply mean_or_nan_fin in M. rewrite map_map in M. apply (variance_of_norm ys m e A) in M.
  assert (U := variance0_unique ys v e V M).
  assert (Y : ((r - 1) * v == 0)%Q) by (setoid_replace ((r - 1) * v)%Q with (r * v - v)%Q by ring; rewrite X, U; ring).
  apply Qmult_integral in Y. destruct Y; [lra|contradiction].
Qed.

Lemma nadd_nan_l l : fold_left nadd l NaN = NaN.
Proof. induction l as [|x t IH]; cbn [fold_left]; auto. Qed.

Lemma nsum_nan l : forall a, In NaN l -> fold_left nadd l a = NaN.
Proof.
  induction l as [|x t IH]; intros a H; [contradiction|]. destruct H as [->|H]; cbn [fold_left].
  - replace (nadd a NaN) with NaN by (destruct a; auto). apply nadd_nan_l.
  - auto.
Qed.

Lemma nmean_nan l : In NaN l -> nmean l = NaN.
Proof. intros H. unfold nmean, nsum. rewrite (nsum_nan l _ H). auto. Qed.

Lemma ndiv_nan x : ndiv x NaN = NaN.
Proof. destruct x; auto. Qed.

Lemma mse_norm_nan p y : List.length p = List.length y -> In NaN y -> mse_norm (VSeries p) y = Ok (MNum NaN).
Proof.
  intros L H. unfold mse_norm, mse_function. rewrite mean_error_series; auto. cbn [rmap divided].
  rewrite (nmean_nan y H).
  rewrite (nmean_nan (map _ y)); [rewrite ndiv_nan; auto|].
  apply in_map_iff. exists NaN. split; auto.
Qed.

Lemma mae_norm_denominator ys : ys <> [] ->
  exists d, nmean (map (fun v => nsub (nmean (map Fin ys)) v) (map Fin ys)) = Fin d /\ (d == 0)%Q.
Proof.
  intros N. destruct (average_exists ys N) as (m & Em & A). rewrite Em.
  rewrite (nmean_map_fin (fun q => m + - q)%Q) by reflexivity.
  destruct (average_exists (map (fun q => m + - q)%Q ys)) as (w & Ew & (_ & W)).
  { intros X. apply map_eq_nil in X. contradiction. }
  exists w. split; auto. rewrite size_map in W.
  assert (E : (total (map (fun q => m + - q) ys) == total (map (fun q => m + (- (1 # 1)) * q) ys))%Q).
  { apply total_map_ext. intros. ring. }
  rewrite E, total_map_plus, total_const, total_map_scale, map_id in W. destruct A as (_ & A). rewrite A in W.
  assert (P := size_pos ys N). assert (Z : (w * size ys == 0)%Q) by (rewrite W; ring).
  apply Qmult_integral in Z. destruct Z; lra.
Qed.

Lemma mae_norm_useless p ys rs : residuals p (map Fin ys) rs -> ys <> [] ->
  exists x, mae_norm (VSeries p) (map Fin ys) = Ok (MNum x) /\
    ((exists r, In r rs /\ ~ (r == 0)%Q) -> x = PInf) /\ (~ (exists r, In r rs /\ ~ (r == 0)%Q) -> x = NaN).
Proof.
  intros R N. destruct (mae_one p _ rs R) as (x & E & M).
  destruct (mae_norm_denominator ys N) as (d & Ed & Z).
  unfold mae_norm. rewrite E. cbn [rmap divided]. rewrite Ed. eexists. split; [reflexivity|].
  destruct rs as [|r0 rs'] eqn:Er; cbn [map mean_or_nan] in M.
  { subst x. split; auto. intros (r & [] & _). }
  destruct M as (e & -> & A). cbn [ndiv]. rewrite (proj2 (Qeq_bool_iff d 0) Z). unfold signed_inf.
  destruct (mae_sign p _ (r0 :: rs') e R E) as (NN & ZZ). split.
  - intros (r & Hr & NZ). rewrite Qeq_bool_false; [|intros X; apply NZ; apply ZZ; auto].
    replace (qltb e 0) with false; auto. destruct (qltb e 0) eqn:B; auto. apply qltb_spec in B. lra.
  - intros H. rewrite (proj2 (Qeq_bool_iff e 0)); auto. apply ZZ. intros r Hr.
    destruct (Qeq_dec r 0); auto. exfalso. apply H. eauto.
Qed.

(** ** Median *)

Lemma sorted_fin qs : sorted nltb (map Fin qs) = map Fin (sorted qltb qs).
Proof.
  induction qs as [|q t IH]; cbn [map sorted]; auto. rewrite IH. apply insert_map. auto.
Qed.

Lemma insert_Qle q l : StronglySorted Qle l -> StronglySorted Qle (insert qltb q l).
Proof.
  induction l as [|x t IH]; cbn [insert]; intros S; [repeat constructor|].
  inversion S as [|? ? S' F]; subst. destruct (qltb x q) eqn:L.
  - constructor; auto. apply Forall_forall. intros y Hy.
    apply (Permutation_in y (insert_perm qltb q t)) in Hy. destruct Hy as [<-|Hy].
    + apply qltb_spec in L. lra.
    + rewrite Forall_forall in F. auto.
  - assert (LE : (q <= x)%Q) by (destruct (Qlt_le_dec x q) as [B|]; auto; apply qltb_spec in B; congruence).
    constructor; auto. constructor; auto. rewrite Forall_forall in *. intros y Hy. specialize (F y Hy). lra.
Qed.

Lemma sorted_Qle l : StronglySorted Qle (sorted qltb l).
Proof. induction l; cbn [sorted]; [constructor|]. apply insert_Qle. auto. Qed.

Lemma existsb_fin qs : existsb is_nan (map Fin qs) = false.
Proof. induction qs; auto. Qed.

Lemma split_nth {A} (l : list A) i d : (i < List.length l)%nat ->
  l = firstn i l ++ nth i l d :: skipn (S i) l.
Proof.
  revert i. induction l as [|x t IH]; intros [|i] L; cbn in *; try lia; auto. f_equal. apply IH. lia.
Qed.

Lemma nmedian_fin qs : qs <> [] -> exists m, nmedian (map Fin qs) = Fin m /\ median qs m.
Proof.
  intros N. unfold nmedian. rewrite existsb_fin, sorted_fin, map_length. set (s := sorted qltb qs).
  assert (P : Permutation qs s) by (symmetry; apply sorted_perm).
  assert (SS : StronglySorted Qle s) by apply sorted_Qle.
  assert (NZ : (List.length s <> 0)%nat).
  { rewrite <- (Permutation_length P). destruct qs; cbn; [congruence|lia]. }
  rewrite (proj2 (Nat.eqb_neq _ _) NZ). clearbody s.
  assert (X : forall i, (i < List.length s)%nat -> nth i (map Fin s) NaN = Fin (nth i s 0%Q)).
  { clear. induction s as [|x t IH]; intros [|i] L; cbn in *; try lia; auto. apply IH. lia. }
  set (n := List.length s) in *. destruct (Nat.even n) eqn:E.
  - apply Nat.even_spec in E. destruct E as (k & E).
    replace (n / 2)%nat with k by (rewrite E, Nat.mul_comm, Nat.div_mul; lia).
    rewrite !X by lia. pose proof (nmean_fin [nth (k - 1) s 0%Q; nth k s 0%Q]) as M.
    cbn [mean_or_nan] in M. destruct M as (m & Em & A). change (map Fin [nth (k - 1) s 0%Q; nth k s 0%Q]) with
      [Fin (nth (k - 1) s 0%Q); Fin (nth k s 0%Q)] in Em. rewrite Em. exists m. split; auto.
    exists s. repeat split; auto. right.
    exists (firstn (k - 1) s), (nth (k - 1) s 0%Q), (nth k s 0%Q), (skipn (S k) s).
    split; [|split].
    + rewrite (split_nth s (k - 1) 0%Q) at 1 by (fold n; lia). f_equal. f_equal.
      replace (S (k - 1)) with k by lia.
      assert (Y : forall (l : list Q) i, (i < List.length l)%nat -> skipn i l = nth i l 0%Q :: skipn (S i) l).
      { clear. induction l as [|x t IH]; intros [|i] L; cbn in *; try lia; auto. apply IH. lia. }
      apply Y. fold n. lia.
    + rewrite firstn_length, skipn_length. fold n. lia.
    + destruct A as (_ & A). unfold size in A. cbn [List.length total fold_right] in A.
      change (inject_Z (Z.of_nat 2)) with 2%Q in A. rewrite A. ring.
  - assert (O : Nat.odd n = true) by (rewrite <- Nat.negb_even, E; auto).
    apply Nat.odd_spec in O. destruct O as (k & O).
    replace (n / 2)%nat with k by (rewrite O; apply Nat.div_unique with (r := 1%nat); lia).
    rewrite X by lia. exists (nth k s 0%Q). split; auto. exists s. repeat split; auto. left.
    exists (firstn k s), (nth k s 0%Q), (skipn (S k) s). split; [|split].
    + apply split_nth. fold n. lia.
    + rewrite firstn_length, skipn_length. fold n. lia.
    + reflexivity.
Qed.

Lemma total_perm a b : Permutation a b -> (total a == total b)%Q.
Proof.
  induction 1; [reflexivity| | |].
  - rewrite !total_cons, IHPermutation. reflexivity.
  - rewrite !total_cons. ring.
  - rewrite IHPermutation1. auto.
Qed.

Lemma aae_one p ys rs : residuals p (map Fin ys) rs -> rs <> [] ->
  exists md, median ys md /\ forall d, average (map (fun q => Qabs (q - md)) ys) d -> ~ (d == 0)%Q ->
  exists e r, mae_function (VSeries p) (map Fin ys) = Ok (MNum (Fin e)) /\
    aae_function (VSeries p) (map Fin ys) = Ok (MNum (Fin r)) /\ (r * d == e)%Q.
Proof.
  intros R N.
  assert (Ny : ys <> []) by (destruct ys; [inversion R; subst; congruence|congruence]).
  destruct (nmedian_fin ys Ny) as (md & Emd & MD). exists md. split; auto. intros d D NZ.
  destruct (mae_one p _ rs R) as (x & E & M).
  destruct rs as [|r0 rs]; [congruence|]. cbn [map mean_or_nan] in M. destruct M as (e & -> & _).
  unfold aae_function. rewrite E. cbn [rmap divided]. rewrite Emd.
  rewrite (nmean_map_fin (fun q => Qabs (q + - md))%Q) by reflexivity.
  destruct (average_exists (map (fun q => Qabs (q + - md))%Q ys)) as (w & Ew & W).
  { intros X. apply map_eq_nil in X. contradiction. }
  rewrite Ew. assert (U := average_unique _ d w D W).
  rewrite ndiv_fin by (rewrite <- U; auto). exists e, (e / w)%Q. repeat split; auto.
  rewrite U. field. rewrite <- U. auto.
Qed.

(** ** Choice of the criterion *)

Lemma lower_char_id c : ~ (65 <= nat_of_ascii c <= 90)%nat -> lower_char c = c.
Proof.
  intros H. unfold lower_char. destruct ((65 <=? nat_of_ascii c) && (nat_of_ascii c <=? 90))%nat eqn:E; auto.
  apply andb_prop in E as (A & B). apply Nat.leb_le in A, B. lia.
Qed.

Lemma lower_char_up c d : (65 <= nat_of_ascii c <= 90)%nat -> nat_of_ascii d = (nat_of_ascii c + 32)%nat -> lower_char c = d.
Proof.
  intros (A & B) E. unfold lower_char. apply Nat.leb_le in A, B. rewrite A, B. cbn [andb].
  rewrite <- E. apply ascii_nat_embedding.
Qed.

Lemma ignoring_case_lower s t : ignoring_case s t <-> lower s = t.
Proof.
  split.
  - induction 1; cbn [lower]; auto.
    + rewrite lower_char_id; auto. congruence.
    + rewrite (lower_char_up c d); auto. congruence.
  - intros <-. induction s as [|c s IH]; cbn [lower]; [constructor|].
    destruct (le_lt_dec 65 (nat_of_ascii c)) as [A|A]; [destruct (le_lt_dec (nat_of_ascii c) 90) as [B|B]|].
    + apply ic_upper; auto. unfold lower_char.
      rewrite (proj2 (Nat.leb_le _ _) A), (proj2 (Nat.leb_le _ _) B). cbn [andb].
      apply nat_ascii_embedding. lia.
    + rewrite lower_char_id by lia. apply ic_same; [lia|auto].
    + rewrite lower_char_id by lia. apply ic_same; [lia|auto].
Qed.

Lemma criterion_choice p y :
  (forall s, ignoring_case s "mse" -> calc_regression_criterion p y (Some s) = mse_function p y) /\
  (forall s, ignoring_case s "mse_norm" -> calc_regression_criterion p y (Some s) = mse_norm p y) /\
  (forall s, ignoring_case s "mae" -> calc_regression_criterion p y (Some s) = mae_function p y) /\
  (forall s, ignoring_case s "mae_norm" -> calc_regression_criterion p y (Some s) = mae_norm p y) /\
  (forall s, ignoring_case s "aae" -> calc_regression_criterion p y (Some s) = aae_function p y) /\
  calc_regression_criterion p y None = mse_norm p y /\
  (forall s, ~ ignoring_case s "mse" -> ~ ignoring_case s "mse_norm" -> ~ ignoring_case s "mae" ->
     ~ ignoring_case s "mae_norm" -> ~ ignoring_case s "aae" ->
     calc_regression_criterion p y (Some s) = Err EValue).
Proof.
  unfold calc_regression_criterion. repeat split; try (intros s H; apply ignoring_case_lower in H; rewrite H; reflexivity).
  intros s A B C D E. rewrite ignoring_case_lower in *.
  assert (X : forall t, lower s <> t -> str_eqb (lower s) t = false).
  { intros t N. destruct (str_eqb (lower s) t) eqn:Q; auto. apply seqb_spec in Q. contradiction. }
  rewrite !X; auto.
Qed.

Lemma criterion_errors s y :
  (forall p, List.length p <> List.length y ->
     mse_function (VSeries p) y = Err EValue /\ mse_norm (VSeries p) y = Err EValue /\
     mae_function (VSeries p) y = Err EValue /\ mae_norm (VSeries p) y = Err EValue /\
     aae_function (VSeries p) y = Err EValue) /\
  (forall n cols, n <> List.length y ->
     mse_function (VFrame n cols) y = Err EValue /\ mse_norm (VFrame n cols) y = Err EValue /\
     mae_function (VFrame n cols) y = Err EValue /\ mae_norm (VFrame n cols) y = Err EValue /\
     aae_function (VFrame n cols) y = Err EValue) /\
  (forall m, In m ["mse"; "mse_norm"; "mae"; "mae_norm"; "aae"]%string -> ignoring_case s m ->
   calc_regression_criterion VOther y (Some s) = Err EType).
Proof.
  split; [|split].
  - intros p N. apply Nat.eqb_neq in N.
    repeat split; unfold mse_norm, mae_norm, aae_function, mse_function, mae_function, mean_error; rewrite N; auto.
  - intros n cols N. apply Nat.eqb_neq in N.
    repeat split; unfold mse_norm, mae_norm, aae_function, mse_function, mae_function, mean_error; rewrite N; auto.
  - intros m H E. apply ignoring_case_lower in E. rewrite <- E in H. unfold calc_regression_criterion.
    repeat destruct H as [<-|H]; auto. contradiction.
Qed.

(** ** Z-score *)

Lemma zscore_value sqrt p exact n y h qs m v s1 s2 :
  values y qs -> average qs m -> variance 0 qs v -> n <> 0 ->
  (forall x, (x * inject_Z n == inject_Z h)%Q -> sqrt (Fin x) = Fin s1) ->
  (forall x, (x == v)%Q -> sqrt (Fin x) = Fin s2) -> ~ (s1 * s2 == 0)%Q ->
  exists z, calc_zscore sqrt (Fin p) exact n y h = Fin z /\ (z * (s1 * s2) == Qabs (p - m))%Q.
Proof.
  intros V A W N S1 S2 NZ. unfold calc_zscore. rewrite (proj2 (Z.eqb_neq n 0) N), andb_false_r.
  pose proof (nanmean_values y qs V) as M. destruct qs as [|q t]; [destruct A; congruence|].
  cbn [mean_or_nan] in M. destruct M as (m' & -> & A'). set (l := q :: t) in *.
  destruct (nanvar_values 0 y l V) as (v' & -> & W'); [cbn; lia|].
  rewrite (S2 v') by (apply (variance0_unique l); auto).
  assert (NQ : ~ (inject_Z n == 0)%Q) by (change 0%Q with (inject_Z 0); rewrite inject_Z_injective; auto).
  unfold numz. rewrite (ndiv_fin _ _ NQ). rewrite (S1 (inject_Z h / inject_Z n)%Q) by (field; auto).
  cbn [nsub nneg nadd nabs nmul]. rewrite (ndiv_fin _ _ NZ). eexists. split; [reflexivity|].
  rewrite (average_unique l m m' A A').
  setoid_replace (Qabs (p + - m') / (s1 * s2) * (s1 * s2))%Q with (Qabs (p + - m'))%Q.
  - reflexivity.
  - field. split; intros X; apply NZ; rewrite X; ring.
Qed.

Lemma zscore_square sqrt p exact n y h qs m v s1 s2 z :
  values y qs -> average qs m -> variance 0 qs v -> n <> 0 ->
  (forall x, (x * inject_Z n == inject_Z h)%Q -> sqrt (Fin x) = Fin s1) -> (s1 * s1 * inject_Z n == inject_Z h)%Q ->
  (forall x, (x == v)%Q -> sqrt (Fin x) = Fin s2) -> (s2 * s2 == v)%Q -> ~ (s1 * s2 == 0)%Q ->
  calc_zscore sqrt (Fin p) exact n y h = Fin z ->
  (z * z * (inject_Z h * v) == (p - m) * (p - m) * inject_Z n)%Q.
Proof.
  intros V A W N S1 Q1 S2 Q2 NZ E.
  destruct (zscore_value sqrt p exact n y h qs m v s1 s2 V A W N S1 S2 NZ) as (z' & E' & X).
  rewrite E in E'. injection E' as <-. rewrite <- Q1, <- Q2.
  assert (Y : (Qabs (p - m) * Qabs (p - m) == (p - m) * (p - m))%Q).
  { rewrite <- Qabs_Qmult. apply Qabs_pos. apply square_nonneg. }
  rewrite <- Y, <- X. ring.
Qed.

Lemma zscore_special sqrt p n y h :
  calc_zscore sqrt p true 0 y h = NaN /\ calc_zscore sqrt NaN true n y h = NaN /\
  calc_zscore sqrt NaN false n y h = NaN.
Proof.
  unfold calc_zscore. repeat split; try destruct (true && (n =? 0)); auto.
Qed.

(** Constant targets. *)
Lemma zscore_constant sqrt p exact n y h qs m s1 :
  values y qs -> average qs m -> n <> 0 -> (forall q, In q qs -> (q == m)%Q) ->
  (forall x, (x * inject_Z n == inject_Z h)%Q -> sqrt (Fin x) = Fin s1) ->
  (forall x, (x == 0)%Q -> sqrt (Fin x) = Fin 0) -> 
  (~ (p == m)%Q -> calc_zscore sqrt (Fin p) exact n y h = PInf) /\
  ((p == m)%Q -> calc_zscore sqrt (Fin p) exact n y h = NaN).
Proof.
  intros V A N C S1 S0. unfold calc_zscore. rewrite (proj2 (Z.eqb_neq n 0) N), andb_false_r.
  pose proof (nanmean_values y qs V) as M. destruct qs as [|q t]; [destruct A; congruence|].
  cbn [mean_or_nan] in M. destruct M as (m' & -> & A'). set (l := q :: t) in *.
  destruct (nanvar_values 0 y l V) as (v' & -> & W'); [cbn; lia|].
  assert (U := average_unique l m m' A A').
  assert (Z : (v' == 0)%Q).
  { destruct W' as (m2 & A2 & W'). assert (U2 := average_unique l m m2 A A2).
    assert (D : (deviations l m2 == 0)%Q).
    { apply total_all_zero. intros x Hx. apply in_map_iff in Hx as (r & <- & Hr). rewrite (C r Hr), U2. ring. }
    assert (P := size_pos l (proj1 A)). rewrite D in W'. apply Qmult_integral in W'. destruct W'; auto.
    change (inject_Z (Z.of_nat 0)) with 0%Q in *. lra. }
  rewrite (S0 v' Z).
  assert (NQ : ~ (inject_Z n == 0)%Q) by (change 0%Q with (inject_Z 0); rewrite inject_Z_injective; auto).
  unfold numz. rewrite (ndiv_fin _ _ NQ). rewrite (S1 (inject_Z h / inject_Z n)%Q) by (field; auto).
  cbn [nsub nneg nadd nabs nmul ndiv].
  rewrite (proj2 (Qeq_bool_iff (s1 * 0) 0)) by ring. unfold signed_inf.
  pose proof (Qabs_nonneg (p + - m')) as NN. split; intros H.
  - rewrite Qeq_bool_false.
    + replace (qltb (Qabs (p + - m')) 0) with false; auto.
      destruct (qltb (Qabs (p + - m')) 0) eqn:B; auto. apply qltb_spec in B. lra.
    + intros X. apply H. rewrite U. pose proof (Qle_Qabs (p + - m')). pose proof (Qle_Qabs (- (p + - m'))) as Y.
      rewrite Qabs_opp in Y. lra.
  - rewrite (proj2 (Qeq_bool_iff (Qabs (p + - m')) 0)); auto.
    setoid_replace (p + - m')%Q with 0%Q; [reflexivity|]. rewrite H, U. ring.
Qed.

Lemma zscore_stacked sqrt rules y h :
  Forall2 (fun r e => fst r = fst e /\
    (snd (snd r) <> 0 \/ fst (snd r) = NaN ->
     snd e = calc_zscore sqrt (fst (snd r)) true (snd (snd r)) y h)) rules (calc_zscores sqrt rules y h).
Proof.
  apply Forall2_map_r. intros (k, (p, n)) _. cbn [fst snd]. split; auto. intros [N| -> ].
  - unfold calc_zscore. rewrite (proj2 (Z.eqb_neq n 0) N), !andb_false_r. auto.
  - destruct (zscore_special sqrt NaN n y h) as (_ & -> & ->). auto.
Qed.

(** Consequences: intersection, algebra, equality, setters. *)
From Coq Require Import List ZArith QArith Bool String Ascii Lia.
From Coq Require Import List.
From Coq Require Import Sorting.Sorted Sorting.Permutation.
From Verif Require Import Base Num CondModel CondSpec CondBase CondProofs CondEval CondAnd.
Import ListNotations.
Open Scope Z_scope.

(** ** Features by name *)

Definition look (fs : list feature) (n : string) : option feature :=
  find (fun g => str_eqb n (f_name g)) fs.

Lemma look_in fs f : NoDup (map f_name fs) -> In f fs -> look fs (f_name f) = Some f.
Proof. intros N I. apply (partner_in fs f f); auto. Qed.

Lemma look_some fs n f : look fs n = Some f -> In f fs /\ f_name f = n.
Proof. intros H. apply find_some in H. destruct H as (I & E). apply seqb_spec in E. auto. Qed.

Lemma look_none fs n : look fs n = None <-> ~ In n (map f_name fs).
Proof. exact (partner_none fs (mkFeat n 0 NaN NaN)). Qed.

Lemma look_perm fs gs n : NoDup (map f_name fs) -> Permutation fs gs -> look fs n = look gs n.
Proof.
  intros N P. destruct (look fs n) as [f|] eqn:E.
  - apply look_some in E. destruct E as (I & <-). symmetry. apply look_in.
    + eapply Permutation_NoDup; [apply Permutation_map|]; eauto.
    + eapply Permutation_in; eauto.
  - symmetry. apply look_none. apply look_none in E. intros I. apply E.
    eapply Permutation_in; [apply Permutation_map; symmetry; eauto|]. auto.
Qed.

Definition both (f g : feature) : feature :=
  mkFeat (f_name f) (f_index f) (py_max (f_low f) (f_low g)) (py_min (f_high f) (f_high g)).

Definition join (a b : option feature) : option feature :=
  match a, b with
  | Some f, Some g => Some (both f g)
  | Some f, None => Some f
  | None, y => y
  end.

Lemma look_union fs gs n :
  NoDup (map f_name fs) -> NoDup (map f_name gs) ->
  look (map (meet gs) fs ++ beside fs gs) n = join (look fs n) (look gs n).
Proof.
  intros N M.
  assert (NN : NoDup (map f_name (map (meet gs) fs ++ beside fs gs))).
  { rewrite map_app, meet_all_names. apply NoDup_app. split; auto. split.
    - apply NoDup_map_filter; auto.
    - intros x Hx Hy. apply in_map_iff in Hy. destruct Hy as (g & <- & Hg).
      apply beside_in in Hg. tauto. }
  destruct (look fs n) as [f|] eqn:F.
  - apply look_some in F. destruct F as (I & <-).
    assert (E : look (map (meet gs) fs ++ beside fs gs) (f_name f) = Some (meet gs f)).
    { rewrite <- (meet_name gs f) at 1. apply look_in; auto. apply in_app_iff. left. apply in_map; auto. }
    rewrite E. unfold meet, partner. unfold look. destruct find; auto.
  - apply look_none in F. cbn [join]. destruct (look gs n) as [g|] eqn:G.
    + apply look_some in G. destruct G as (I & <-). apply look_in; auto.
      apply in_app_iff. right. apply beside_in. auto.
    + apply look_none. apply look_none in G. rewrite map_app, meet_all_names, in_app_iff.
      intros [|H]; auto. apply in_map_iff in H. destruct H as (g & <- & H). apply beside_in in H.
      apply G. apply in_map. tauto.
Qed.

Definition same_opt (a b : option feature) : Prop :=
  match a, b with
  | Some f, Some g => same_feature f g
  | None, None => True
  | _, _ => False
  end.

(** ** Sorted lists with the same content *)

Lemma Forall2_keys {A} (key : feature -> A) (R : feature -> feature -> Prop) : forall fs gs,
  map key fs = map key gs -> NoDup (map key gs) ->
  (forall f, In f fs -> exists g, In g gs /\ key g = key f /\ R f g) -> Forall2 R fs gs.
Proof.
  induction fs as [|f fs IH]; intros [|g gs] E N H; try discriminate; auto.
  cbn [map] in E, N. injection E as E1 E2. constructor.
  - destruct (H f (or_introl eq_refl)) as (g' & I & K & r).
    assert (g' = g) as <-; auto. apply (NoDup_map_inj key (g :: gs)); cbn; auto. congruence.
  - inversion N; subst. apply IH; auto. intros f' Hf. destruct (H f' (or_intror Hf)) as (g' & I & K & r).
    exists g'. split; auto. destruct I as [ -> |I]; auto. exfalso. apply H2. rewrite K, <- E2. apply in_map; auto.
Qed.

Lemma same_lists sett fs gs :
  in_order sett fs -> in_order sett gs -> distinct fs -> distinct gs ->
  (forall n, same_opt (look fs n) (look gs n)) -> Forall2 same_feature fs gs.
Proof.
  intros O1 O2 (N1 & N2) (M1 & M2) S.
  assert (F : forall f, In f fs -> exists g, In g gs /\ same_feature f g).
  { intros f Hf. specialize (S (f_name f)). rewrite (look_in fs f N1 Hf) in S.
    destruct (look gs (f_name f)) as [g|] eqn:E; [|destruct S]. apply look_some in E. exists g. tauto. }
  assert (G : forall g, In g gs -> exists f, In f fs /\ same_feature f g).
  { intros g Hg. specialize (S (f_name g)). rewrite (look_in gs g M1 Hg) in S.
    destruct (look fs (f_name g)) as [f|] eqn:E; [|destruct S]. apply look_some in E. exists f. tauto. }
  assert (H : forall A (key : feature -> A), (forall f g, same_feature f g -> key f = key g) ->
     forall a, In a (map key fs) <-> In a (map key gs)).
  { intros A key K a. split; intros I; apply in_map_iff in I; destruct I as (f & <- & I).
    - destruct (F f I) as (g & Ig & r). rewrite (K f g r). apply in_map; auto.
    - destruct (G f I) as (g & Ig & r). rewrite <- (K g f r). apply in_map; auto. }
  destruct O1 as [ -> S1| -> S1], O2 as [E2 S2|E2 S2]; try discriminate.
  - apply (Forall2_keys f_index); auto.
    + apply (sorted_unique Z.lt).
      * intros x. lia.
      * intros x y z. lia.
      * apply StronglySorted_map in S1. auto.
      * apply StronglySorted_map in S2. auto.
      * apply H. intros f g (_ & r & _). auto.
    + intros f Hf. destruct (F f Hf) as (g & Ig & r). exists g. repeat split; auto; try apply r.
      symmetry; apply r.
  - apply (Forall2_keys f_name); auto.
    + apply (sorted_unique (fun x y => str_ltb x y = true)).
      * intros x K. rewrite str_ltb_irrefl in K. discriminate.
      * intros x y z. apply str_ltb_trans.
      * apply (StronglySorted_map f_name (fun x y => str_ltb x y = true)). auto.
      * apply (StronglySorted_map f_name (fun x y => str_ltb x y = true)). auto.
      * apply H. intros f g (r & _). auto.
    + intros f Hf. destruct (F f Hf) as (g & Ig & r). exists g. repeat split; auto; try apply r.
      symmetry; apply r.
Qed.

Lemma nlt_same a b c d : same_num a c -> same_num b d -> nlt a b -> nlt c d.
Proof.
  destruct a, b, c, d; cbn; try tauto. intros E F L. rewrite <- E, <- F. auto.
Qed.

Lemma crossed_same fs gs : Forall2 same_feature fs gs -> crossed fs -> crossed gs.
Proof.
  intros H (f & Hf & L). induction H as [|x y fs gs S _ IH]; [destruct Hf|].
  destruct Hf as [ -> |Hf].
  - exists y. split; [left; auto|]. destruct S as (_ & _ & A & B). eapply nlt_same; eauto.
  - destruct (IH Hf) as (g & Hg & L'). exists g. split; auto. right; auto.
Qed.

Lemma same_feature_sym f g : same_feature f g -> same_feature g f.
Proof. intros (A & B & C & D). repeat split; auto using same_num_sym. Qed.

Lemma Forall2_sym {A} (R : A -> A -> Prop) l l' :
  (forall x y, R x y -> R y x) -> Forall2 R l l' -> Forall2 R l' l.
Proof. intros S. induction 1; constructor; auto. Qed.

Lemma same_cond_intro c d fs gs :
  condition c fs -> condition d gs -> Forall2 same_feature fs gs -> same_cond c d.
Proof.
  intros (L1 & _ & I1) (L2 & _ & I2) S. exists fs, gs. repeat split; auto; try apply L1; try apply L2.
  apply eq_true_iff_eq. rewrite I1, I2. split; apply crossed_same; auto.
  apply Forall2_sym; auto. apply same_feature_sym.
Qed.

(** ** Both bounds *)

Lemma greatest_within x a b m : greatest a b m -> nle m x <-> nle a x /\ nle b x.
Proof.
  intros ([ -> | -> ] & A & B); split; try tauto; intros H; split; auto; eapply nle_trans; eauto.
Qed.

Lemma smallest_within x a b m : smallest a b m -> nle x m <-> nle x a /\ nle x b.
Proof.
  intros ([ -> | -> ] & A & B); split; try tauto; intros H; split; auto; eapply nle_trans; eauto.
Qed.

Lemma both_within x f g :
  f_low f <> NaN -> f_low g <> NaN -> f_high f <> NaN -> f_high g <> NaN ->
  within x (f_low (both f g)) (f_high (both f g)) <->
  within x (f_low f) (f_high f) /\ within x (f_low g) (f_high g).
Proof.
  intros A B C D. unfold within, both; cbn [f_low f_high].
  rewrite (greatest_within x _ _ _ (py_max_spec (f_low f) (f_low g) A B)).
  rewrite (smallest_within x _ _ _ (py_min_spec (f_high f) (f_high g) C D)). tauto.
Qed.

Lemma meet_both gs f g : partner gs f = Some g -> meet gs f = both f g.
Proof. intros E. unfold meet. rewrite E. auto. Qed.

(** The features of the result. *)
Lemma band_features sett c1 c2 fs1 fs2 c :
  known sett -> condition c1 fs1 -> condition c2 fs2 -> band sett c1 c2 = Ok c ->
  consistent fs1 fs2 /\
  exists fs, condition c fs /\ in_order sett fs /\
    Permutation fs (map (meet fs2) fs1 ++ beside fs1 fs2).
Proof.
  intros K (L1 & D1 & _) (L2 & D2 & _) E.
  destruct (band_cases sett c1 c2 fs1 fs2 K L1 D1 L2 D2) as [(C & c' & fs & E' & X & Y & Z)|(_ & E')].
  - rewrite E in E'. injection E' as <-. eauto 10.
  - congruence.
Qed.

Lemma band_intersected sett c1 c2 fs1 fs2 c :
  known sett -> condition c1 fs1 -> condition c2 fs2 -> no_nan fs1 -> no_nan fs2 ->
  band sett c1 c2 = Ok c ->
  exists fs, condition c fs /\ in_order sett fs /\
    (forall h, In h fs -> intersected fs1 fs2 h) /\
    (forall n, In n (map f_name fs) <-> In n (map f_name fs1) \/ In n (map f_name fs2)).
Proof.
  intros K C1 C2 Q1 Q2 E. destruct (band_features _ _ _ _ _ _ K C1 C2 E) as (CO & fs & C & O & P).
  exists fs. split; auto. split; auto. split.
  - intros h Hh. apply (Permutation_in _ P) in Hh. apply in_app_iff in Hh. destruct Hh as [Hh|Hh].
    + apply in_map_iff in Hh. destruct Hh as (f & <- & Hf). unfold meet.
      destruct (partner fs2 f) as [g|] eqn:G.
      * right. right. apply partner_some in G. destruct G as (Ig & En). exists f, g. cbn.
        destruct (Q1 f Hf), (Q2 g Ig). repeat split; auto.
        -- symmetry. apply CO; auto.
        -- apply py_max_spec; auto.
        -- apply py_max_spec; auto.
        -- apply py_max_spec; auto.
        -- apply py_min_spec; auto.
        -- apply py_min_spec; auto.
        -- apply py_min_spec; auto.
      * left. apply partner_none in G. auto.
    + right. left. apply beside_in in Hh. auto.
  - intros n. split.
    + intros I. apply in_map_iff in I. destruct I as (h & <- & I). apply (Permutation_in _ P) in I.
      apply in_app_iff in I. destruct I as [I|I].
      * apply in_map_iff in I. destruct I as (f & <- & I). rewrite meet_name. left. apply in_map; auto.
      * apply beside_in in I. right. apply in_map. tauto.
    + intros I. eapply Permutation_in; [apply Permutation_map; symmetry; exact P|].
      rewrite map_app, meet_all_names, in_app_iff.
      destruct (in_dec string_dec n (map f_name fs1)); auto. destruct I as [|I]; [tauto|].
      right. apply in_map_iff in I. destruct I as (g & <- & I). apply in_map. apply beside_in. auto.
Qed.

Lemma value_same xs r f g x : f_name f = f_name g -> f_index f = f_index g -> value xs r f x -> value xs r g x.
Proof. intros E F. destruct xs; cbn [value]; rewrite E || rewrite F; auto. Qed.

Lemma value_fun xs r f x y : well_shaped xs -> value xs r f x -> value xs r f y -> x = y.
Proof.
  destruct xs as [d rows|n columns]; cbn [value well_shaped]; intros W.
  - intros (row & A & B) (row' & A' & B'). rewrite A in A'. injection A' as <-.
    destruct B as [(? & B)|(? & B)], B' as [(? & B')|(? & B')]; try lia; congruence.
  - intros (col & A & B) (col' & A' & B'). destruct W as (N & _).
    assert (G : (f_name f, col) = (f_name f, col')) by (eapply (NoDup_map_inj fst); eauto).
    congruence.
Qed.

Lemma satisfied_union xs r fs1 fs2 fs :
  well_shaped xs -> distinct fs2 -> no_nan fs1 -> no_nan fs2 -> consistent fs1 fs2 ->
  Permutation fs (map (meet fs2) fs1 ++ beside fs1 fs2) ->
  satisfied xs r fs <-> satisfied xs r fs1 /\ satisfied xs r fs2.
Proof.
  intros W (M1 & M2) Q1 Q2 CO P.
  assert (IM : forall f, In f fs1 -> In (meet fs2 f) fs).
  { intros f Hf. eapply Permutation_in; [symmetry; exact P|]. apply in_app_iff. left. apply in_map; auto. }
  assert (IB : forall g, In g (beside fs1 fs2) -> In g fs).
  { intros f Hf. eapply Permutation_in; [symmetry; exact P|]. apply in_app_iff. auto. }
  split.
  - intros S. split.
    + intros f Hf. destruct (S _ (IM f Hf)) as (x & V & I). exists x. split.
      * eapply value_same; [| |exact V]; [apply meet_name|apply meet_index].
      * destruct (partner fs2 f) as [g|] eqn:G.
        -- rewrite (meet_both _ _ _ G) in I. apply partner_some in G. destruct G as (Ig & _).
           destruct (Q1 f Hf), (Q2 g Ig). apply both_within in I; auto. tauto.
        -- unfold meet in I. rewrite G in I. auto.
    + intros g Hg. destruct (in_dec string_dec (f_name g) (map f_name fs1)) as [I|I].
      * apply in_map_iff in I. destruct I as (f & En & Hf).
        assert (G : partner fs2 f = Some g) by (apply partner_in; auto).
        destruct (S _ (IM f Hf)) as (x & V & I). exists x. rewrite (meet_both _ _ _ G) in V, I. split.
        -- eapply value_same; [| |exact V]; cbn; auto. apply CO; auto.
        -- destruct (Q1 f Hf), (Q2 g Hg). apply both_within in I; auto. tauto.
      * apply S. apply IB. apply beside_in. auto.
  - intros (S1 & S2) h Hh. apply (Permutation_in _ P) in Hh. apply in_app_iff in Hh.
    destruct Hh as [Hh|Hh].
    + apply in_map_iff in Hh. destruct Hh as (f & <- & Hf). destruct (S1 f Hf) as (x & V & I).
      destruct (partner fs2 f) as [g|] eqn:G.
      * rewrite (meet_both _ _ _ G). apply partner_some in G. destruct G as (Hg & En).
        exists x. split.
        -- eapply value_same; [| |exact V]; auto.
        -- destruct (Q1 f Hf), (Q2 g Hg). apply both_within; auto. split; auto.
           destruct (S2 g Hg) as (y & V' & I').
           assert (x = y) as ->; auto. apply (value_fun xs r f); auto.
           eapply value_same; [| |exact V']; auto. symmetry. apply CO; auto.
      * unfold meet. rewrite G. eauto.
    + apply beside_in in Hh. apply S2. tauto.
Qed.

Lemma crossed_left fs1 fs2 fs :
  no_nan fs1 -> no_nan fs2 ->
  Permutation fs (map (meet fs2) fs1 ++ beside fs1 fs2) -> crossed fs1 -> crossed fs.
Proof.
  intros Q1 Q2 P (f & Hf & L). exists (meet fs2 f). split.
  - eapply Permutation_in; [symmetry; exact P|]. apply in_app_iff. left. apply in_map; auto.
  - destruct (partner fs2 f) as [g|] eqn:G.
    + rewrite (meet_both _ _ _ G). apply partner_some in G. destruct G as (Hg & En).
      destruct (Q1 f Hf), (Q2 g Hg). cbn.
      destruct (py_max_spec (f_low f) (f_low g)) as (_ & A & _); auto.
      destruct (py_min_spec (f_high f) (f_high g)) as (_ & B & _); auto.
      eapply nle_nlt_trans; [exact B|]. eapply nlt_nle_trans; eauto.
    + unfold meet. rewrite G. auto.
Qed.

Lemma crossed_right fs1 fs2 fs :
  NoDup (map f_name fs2) -> no_nan fs1 -> no_nan fs2 ->
  Permutation fs (map (meet fs2) fs1 ++ beside fs1 fs2) -> crossed fs2 -> crossed fs.
Proof.
  intros N Q1 Q2 P (g & Hg & L).
  destruct (in_dec string_dec (f_name g) (map f_name fs1)) as [I|I].
  - apply in_map_iff in I. destruct I as (f & En & Hf).
    exists (meet fs2 f). split.
    + eapply Permutation_in; [symmetry; exact P|]. apply in_app_iff. left. apply in_map; auto.
    + rewrite (meet_both fs2 f g) by (apply partner_in; auto).
      destruct (Q1 f Hf), (Q2 g Hg). cbn.
      destruct (py_max_spec (f_low f) (f_low g)) as (_ & _ & A); auto.
      destruct (py_min_spec (f_high f) (f_high g)) as (_ & _ & B); auto.
      eapply nle_nlt_trans; [exact B|]. eapply nlt_nle_trans; eauto.
  - exists g. split; auto. eapply Permutation_in; [symmetry; exact P|]. apply in_app_iff. right.
    apply beside_in. auto.
Qed.

Lemma product_length u : forall v, List.length u = List.length v -> List.length (product u v) = List.length u.
Proof. induction u; intros [|y v]; cbn; intros; try lia. rewrite IHu; lia. Qed.

Lemma product_nth u : forall v r, List.length u = List.length v ->
  nth r (product u v) 0 = nth r u 0 * nth r v 0.
Proof.
  induction u as [|x u IH]; intros [|y v] r L; cbn in L; try lia.
  - destruct r; auto.
  - destruct r; cbn; auto.
Qed.

Lemma unflagged c fs : condition c fs -> c_imp c = false -> ~ crossed fs.
Proof. intros (_ & _ & I) E C. apply I in C. congruence. Qed.

Lemma evaluate_ok_accepted c fs xs v :
  condition c fs -> ~ crossed fs -> evaluate c xs = Ok v -> accepted xs fs.
Proof.
  intros C NC E. split.
  - intros f Hf. assert (Dec : has_feature xs f \/ ~ has_feature xs f).
    { destruct xs; cbn [has_feature]; [lia|].
      destruct (in_dec string_dec (f_name f) (map fst columns)); auto. }
    destruct Dec as [|N]; auto. rewrite (evaluate_missing c fs xs) in E; eauto. discriminate.
  - destruct xs; auto. intros ->. rewrite evaluate_nothing in E; auto. discriminate.
Qed.

Lemma band_evaluate sett c1 c2 fs1 fs2 c xs v1 v2 :
  known sett -> condition c1 fs1 -> condition c2 fs2 -> no_nan fs1 -> no_nan fs2 ->
  band sett c1 c2 = Ok c -> well_shaped xs ->
  evaluate c1 xs = Ok v1 -> evaluate c2 xs = Ok v2 ->
  evaluate c xs = Ok (product v1 v2).
Proof.
  intros K C1 C2 Q1 Q2 E W E1 E2.
  destruct (band_features _ _ _ _ _ _ K C1 C2 E) as (CO & fs & C & O & P).
  pose proof (evaluate_inv _ _ _ _ C1 W E1) as (L1 & V1).
  pose proof (evaluate_inv _ _ _ _ C2 W E2) as (L2 & V2).
  assert (M : marks xs fs (product v1 v2)).
  { split; [rewrite product_length; congruence|]. intros r R.
    rewrite product_nth by congruence.
    destruct C2 as (_ & D2 & _).
    pose proof (satisfied_union xs r fs1 fs2 fs W D2 Q1 Q2 CO P) as U.
    destruct (V1 r R) as [(A & B)|(A & B)], (V2 r R) as [(A' & B')|(A' & B')];
      rewrite A, A'; [left|right|right|right]; split; try lia; tauto. }
  destruct (c_imp c) eqn:Imp.
  - rewrite evaluate_flagged by auto. f_equal. eapply marks_unique; [|exact M].
    apply marks_zeros. destruct C as (_ & _ & I). tauto.
  - pose proof (unflagged c fs C Imp) as NC.
    assert (A1 : accepted xs fs1).
    { apply (evaluate_ok_accepted c1 fs1 xs v1); auto. intros X. apply NC.
      apply (crossed_left fs1 fs2); auto. }
    assert (A2 : accepted xs fs2).
    { apply (evaluate_ok_accepted c2 fs2 xs v2); auto. intros X. apply NC.
      apply (crossed_right fs1 fs2); auto. apply C2. }
    destruct (evaluate_marks c fs xs C W) as (v & Ev & Mv).
    + split.
      * intros h Hh. apply (Permutation_in _ P) in Hh. apply in_app_iff in Hh. destruct Hh as [Hh|Hh].
        -- apply in_map_iff in Hh. destruct Hh as (f & <- & Hf). destruct A1 as (A1 & _).
           specialize (A1 f Hf). destruct xs; cbn [has_feature] in *; rewrite ?meet_index, ?meet_name; auto.
        -- apply beside_in in Hh. apply A2. tauto.
      * destruct xs; auto. intros ->. apply Permutation_nil in P. destruct fs1 as [|f fs1]; [|discriminate].
        destruct A1 as (_ & A1). congruence.
    + rewrite Ev. f_equal. eapply marks_unique; eauto.
Qed.

(** ** Algebra *)

Lemma both_comm f g :
  f_name f = f_name g -> f_index f = f_index g ->
  f_low f <> NaN -> f_low g <> NaN -> f_high f <> NaN -> f_high g <> NaN ->
  same_feature (both f g) (both g f).
Proof.
  intros A B C D E F. unfold both, same_feature; cbn. split; auto. split; auto. split.
  - destruct (py_max_spec (f_low f) (f_low g)) as (X & Y & Z); auto.
    destruct (py_max_spec (f_low g) (f_low f)) as (X' & Y' & Z'); auto.
    apply same_num_le; [destruct X as [ -> | -> ]|destruct X' as [ -> | -> ]]; auto.
  - destruct (py_min_spec (f_high f) (f_high g)) as (X & Y & Z); auto.
    destruct (py_min_spec (f_high g) (f_high f)) as (X' & Y' & Z'); auto.
    apply same_num_le; [destruct X' as [ -> | -> ]|destruct X as [ -> | -> ]]; auto.
Qed.

Lemma py_max_nan a b : a <> NaN -> b <> NaN -> py_max a b <> NaN.
Proof. intros. unfold py_max. destruct ngtb; auto. Qed.
Lemma py_min_nan a b : a <> NaN -> b <> NaN -> py_min a b <> NaN.
Proof. intros. unfold py_min. destruct nltb; auto. Qed.

Lemma both_assoc f g h :
  f_low f <> NaN -> f_low g <> NaN -> f_high f <> NaN -> f_high g <> NaN ->
  f_low h <> NaN -> f_high h <> NaN ->
  same_feature (both (both f g) h) (both f (both g h)).
Proof.
  intros C D E F G H. unfold both, same_feature; cbn. split; auto. split; auto. split.
  - destruct (py_max_spec (f_low f) (f_low g)) as (X1 & Y1 & Z1); auto.
    destruct (py_max_spec (f_low g) (f_low h)) as (X2 & Y2 & Z2); auto.
    destruct (py_max_spec (py_max (f_low f) (f_low g)) (f_low h)) as (X3 & Y3 & Z3); auto using py_max_nan.
    destruct (py_max_spec (f_low f) (py_max (f_low g) (f_low h))) as (X4 & Y4 & Z4); auto using py_max_nan.
    apply same_num_le.
    + destruct X3 as [ -> | -> ]; [destruct X1 as [ -> | -> ]|]; eauto using nle_trans.
    + destruct X4 as [ -> | -> ]; [|destruct X2 as [ -> | -> ]]; eauto using nle_trans.
  - destruct (py_min_spec (f_high f) (f_high g)) as (X1 & Y1 & Z1); auto.
    destruct (py_min_spec (f_high g) (f_high h)) as (X2 & Y2 & Z2); auto.
    destruct (py_min_spec (py_min (f_high f) (f_high g)) (f_high h)) as (X3 & Y3 & Z3); auto using py_min_nan.
    destruct (py_min_spec (f_high f) (py_min (f_high g) (f_high h))) as (X4 & Y4 & Z4); auto using py_min_nan.
    apply same_num_le.
    + destruct X4 as [ -> | -> ]; [|destruct X2 as [ -> | -> ]]; eauto using nle_trans.
    + destruct X3 as [ -> | -> ]; [destruct X1 as [ -> | -> ]|]; eauto using nle_trans.
Qed.

Lemma same_feature_refl f : same_feature f f.
Proof. repeat split; apply same_num_refl. Qed.

Lemma consistent_sym fs gs : consistent fs gs -> consistent gs fs.
Proof. intros C f g Hf Hg. specialize (C g f Hg Hf). split; intros E; symmetry; apply C; auto. Qed.

Lemma band_look (sett : settings) c1 c2 fs1 fs2 c fs :
  condition c1 fs1 -> condition c2 fs2 -> condition c fs ->
  Permutation fs (map (meet fs2) fs1 ++ beside fs1 fs2) ->
  forall n, look fs n = join (look fs1 n) (look fs2 n).
Proof.
  intros (_ & (N1 & _) & _) (_ & (N2 & _) & _) (_ & (N & _) & _) P n.
  rewrite (look_perm _ _ n N P). apply look_union; auto.
Qed.

Lemma band_commutes sett c1 c2 fs1 fs2 :
  known sett -> condition c1 fs1 -> condition c2 fs2 -> no_nan fs1 -> no_nan fs2 ->
  (exists c d, band sett c1 c2 = Ok c /\ band sett c2 c1 = Ok d /\ same_cond c d) \/
  (band sett c1 c2 = Err EIndex /\ band sett c2 c1 = Err EIndex).
Proof.
  intros K C1 C2 Q1 Q2.
  destruct (band_cases sett c1 c2 fs1 fs2 K (proj1 C1) (proj1 (proj2 C1)) (proj1 C2) (proj1 (proj2 C2)))
    as [(CO & c & fs & E & C & O & P)|(NC & E)];
  destruct (band_cases sett c2 c1 fs2 fs1 K (proj1 C2) (proj1 (proj2 C2)) (proj1 C1) (proj1 (proj2 C1)))
    as [(CO' & d & gs & E' & C' & O' & P')|(NC' & E')].
  - left. exists c, d. split; auto. split; auto. eapply same_cond_intro; eauto.
    eapply same_lists; eauto; try apply C; try apply C'.
    intros n. rewrite (band_look sett c1 c2 fs1 fs2 c fs C1 C2 C P n).
    rewrite (band_look sett c2 c1 fs2 fs1 d gs C2 C1 C' P' n).
    destruct (look fs1 n) as [f|] eqn:F, (look fs2 n) as [g|] eqn:G; cbn [join same_opt]; auto using same_feature_refl.
    apply look_some in F, G. destruct F as (F & Ef), G as (G & Eg).
    destruct (Q1 f F), (Q2 g G). apply both_comm; auto; try congruence. apply CO; congruence.
  - exfalso. apply NC'. apply consistent_sym; auto.
  - exfalso. apply NC. apply consistent_sym; auto.
  - right. auto.
Qed.

Lemma band_no_nan fs1 fs2 fs :
  no_nan fs1 -> no_nan fs2 -> Permutation fs (map (meet fs2) fs1 ++ beside fs1 fs2) -> no_nan fs.
Proof.
  intros Q1 Q2 P h Hh. apply (Permutation_in _ P) in Hh. apply in_app_iff in Hh. destruct Hh as [Hh|Hh].
  - apply in_map_iff in Hh. destruct Hh as (f & <- & Hf). unfold meet.
    destruct (partner fs2 f) as [g|] eqn:G; auto. apply partner_some in G. destruct G as (Hg & _).
    destruct (Q1 f Hf), (Q2 g Hg). cbn. auto using py_max_nan, py_min_nan.
  - apply beside_in in Hh. apply Q2. tauto.
Qed.

(** Names and indexes of the result are those of the operands. *)
Lemma band_keys fs1 fs2 fs :
  distinct fs1 -> distinct fs2 -> consistent fs1 fs2 ->
  Permutation fs (map (meet fs2) fs1 ++ beside fs1 fs2) ->
  (forall h, In h fs -> exists f, In f (fs1 ++ fs2) /\ f_name f = f_name h /\ f_index f = f_index h) /\
  (forall f, In f (fs1 ++ fs2) -> exists h, In h fs /\ f_name f = f_name h /\ f_index f = f_index h).
Proof.
  intros D1 D2 CO P. split.
  - intros h Hh. apply (Permutation_in _ P) in Hh. apply in_app_iff in Hh. destruct Hh as [Hh|Hh].
    + apply in_map_iff in Hh. destruct Hh as (f & <- & Hf). exists f. rewrite meet_name, meet_index.
      rewrite in_app_iff. auto.
    + apply beside_in in Hh. exists h. rewrite in_app_iff. tauto.
  - intros f Hf. apply in_app_iff in Hf. destruct Hf as [Hf|Hf].
    + exists (meet fs2 f). rewrite meet_name, meet_index. split; auto.
      eapply Permutation_in; [symmetry; exact P|]. apply in_app_iff. left. apply in_map; auto.
    + destruct (in_dec string_dec (f_name f) (map f_name fs1)) as [I|I].
      * apply in_map_iff in I. destruct I as (g & En & Hg). exists (meet fs2 g).
        rewrite meet_name, meet_index. split.
        -- eapply Permutation_in; [symmetry; exact P|]. apply in_app_iff. left. apply in_map; auto.
        -- split; auto. symmetry. apply CO; auto.
      * exists f. split; auto. eapply Permutation_in; [symmetry; exact P|]. apply in_app_iff. right.
        apply beside_in. auto.
Qed.

Lemma consistent_keys fs gs fs' :
  (forall h, In h fs' -> exists f, In f fs /\ f_name f = f_name h /\ f_index f = f_index h) ->
  consistent fs gs -> consistent fs' gs.
Proof.
  intros K C h g Hh Hg. destruct (K h Hh) as (f & Hf & <- & <-). apply C; auto.
Qed.

Lemma consistent_app fs gs hs : consistent (fs ++ gs) hs <-> consistent fs hs /\ consistent gs hs.
Proof.
  split.
  - intros C. split; intros f g Hf Hg; apply C; auto; apply in_app_iff; auto.
  - intros (A & B) f g Hf Hg. apply in_app_iff in Hf. destruct Hf; auto.
Qed.

(** The result of an intersection is consistent with a third list exactly when
    both operands are. *)
Lemma band_consistent fs1 fs2 fs hs :
  distinct fs1 -> distinct fs2 -> consistent fs1 fs2 ->
  Permutation fs (map (meet fs2) fs1 ++ beside fs1 fs2) ->
  consistent fs hs <-> consistent fs1 hs /\ consistent fs2 hs.
Proof.
  intros D1 D2 CO P. destruct (band_keys fs1 fs2 fs D1 D2 CO P) as (A & B).
  rewrite <- consistent_app. split; intros C.
  - apply (consistent_keys fs); auto. intros f Hf.
    destruct (B f Hf) as (h & X & Y & Z). exists h. auto.
  - apply (consistent_keys (fs1 ++ fs2)); auto.
Qed.

Lemma band_assoc sett c1 c2 c3 fs1 fs2 fs3 :
  known sett -> condition c1 fs1 -> condition c2 fs2 -> condition c3 fs3 ->
  no_nan fs1 -> no_nan fs2 -> no_nan fs3 ->
  let left := rbind (band sett c1 c2) (fun c => band sett c c3) in
  let right := rbind (band sett c2 c3) (fun c => band sett c1 c) in
  (exists c d, left = Ok c /\ right = Ok d /\ same_cond c d) \/
  (left = Err EIndex /\ right = Err EIndex).
Proof.
  intros K C1 C2 C3 Q1 Q2 Q3 left right. subst left right.
  pose proof (band_cases sett c1 c2 fs1 fs2 K (proj1 C1) (proj1 (proj2 C1)) (proj1 C2) (proj1 (proj2 C2))) as H12.
  pose proof (band_cases sett c2 c3 fs2 fs3 K (proj1 C2) (proj1 (proj2 C2)) (proj1 C3) (proj1 (proj2 C3))) as H23.
  assert (D1 := proj1 (proj2 C1)). assert (D2 := proj1 (proj2 C2)). assert (D3 := proj1 (proj2 C3)).
  assert (X12 : forall c fs, condition c fs -> _) by
    exact (fun c fs C => band_cases sett c c3 fs fs3 K (proj1 C) (proj1 (proj2 C)) (proj1 C3) (proj1 (proj2 C3))).
  assert (X23 : forall c fs, condition c fs -> _) by
    exact (fun c fs C => band_cases sett c1 c fs1 fs K (proj1 C1) (proj1 (proj2 C1)) (proj1 C) (proj1 (proj2 C))).
  destruct H12 as [(CO12 & c & fs & E12 & C12 & O12 & P12)|(N12 & E12)]; rewrite E12; cbn [rbind];
  destruct H23 as [(CO23 & d & gs & E23 & C23 & O23 & P23)|(N23 & E23)]; rewrite E23; cbn [rbind].
  - pose proof (band_consistent fs1 fs2 fs fs3 D1 D2 CO12 P12) as B1.
    pose proof (band_consistent fs2 fs3 gs fs1 D2 D3 CO23 P23) as B2.
    destruct (X12 c fs C12) as [(CO & l & ls & El & Cl & Ol & Pl)|(N & El)];
    destruct (X23 d gs C23) as [(CO' & r & rs & Er & Cr & Or & Pr)|(N' & Er)]; rewrite El, Er.
    + left. exists l, r. split; auto. split; auto. eapply same_cond_intro; eauto.
      eapply same_lists; eauto; try apply Cl; try apply Cr. intros n.
      rewrite (band_look sett c c3 fs fs3 l ls C12 C3 Cl Pl n).
      rewrite (band_look sett c1 c2 fs1 fs2 c fs C1 C2 C12 P12 n).
      rewrite (band_look sett c1 d fs1 gs r rs C1 C23 Cr Pr n).
      rewrite (band_look sett c2 c3 fs2 fs3 d gs C2 C3 C23 P23 n).
      destruct (look fs1 n) as [f|] eqn:F, (look fs2 n) as [g|] eqn:G, (look fs3 n) as [h|] eqn:H;
        cbn [join same_opt]; auto using same_feature_refl.
      apply look_some in F, G, H. destruct F as (F & _), G as (G & _), H as (H & _).
      destruct (Q1 f F), (Q2 g G), (Q3 h H). apply both_assoc; auto.
    + exfalso. apply N'. apply B1 in CO. apply consistent_sym. apply B2.
      split; apply consistent_sym; tauto.
    + exfalso. apply N. apply B1. apply consistent_sym in CO'. apply B2 in CO'.
      split; auto. apply consistent_sym. tauto.
    + right. auto.
  - right. split; auto. destruct (X12 c fs C12) as [(CO & _)|(_ & El)]; auto.
    exfalso. apply N23. apply (band_consistent fs1 fs2 fs fs3 D1 D2 CO12 P12) in CO. tauto.
  - right. split; auto. destruct (X23 d gs C23) as [(CO & _)|(_ & El)]; auto.
    exfalso. apply N12. apply consistent_sym in CO.
    apply (band_consistent fs2 fs3 gs fs1 D2 D3 CO23 P23) in CO. apply consistent_sym. tauto.
  - right. auto.
Qed.

Lemma consistent_self fs : distinct fs -> consistent fs fs.
Proof.
  intros (N1 & N2) f g Hf Hg. split; intros E.
  - assert (f = g) as ->; auto. apply (NoDup_map_inj f_name fs); auto.
  - assert (f = g) as ->; auto. apply (NoDup_map_inj f_index fs); auto.
Qed.

Lemma product_self v xs fs : marks xs fs v -> product v v = v.
Proof.
  intros (L & V). apply (nth_ext _ _ 0 0); [apply product_length; auto|].
  intros r R. rewrite product_length in R by auto. rewrite product_nth by auto.
  rewrite L in R. destruct (V r R) as [(-> & _)|(-> & _)]; auto.
Qed.

Lemma band_idempotent sett c fs :
  known sett -> condition c fs -> no_nan fs ->
  exists d, band sett c c = Ok d /\
    forall xs v, well_shaped xs -> evaluate c xs = Ok v -> evaluate d xs = Ok v.
Proof.
  intros K C Q.
  destruct (band_cases sett c c fs fs K (proj1 C) (proj1 (proj2 C)) (proj1 C) (proj1 (proj2 C)))
    as [(CO & d & gs & E & C' & O & P)|(NC & E)].
  - exists d. split; auto. intros xs v W Ev.
    rewrite (band_evaluate sett c c fs fs d xs v v) by auto.
    f_equal. apply (product_self v xs fs). apply (evaluate_inv c); auto.
  - exfalso. apply NC. apply consistent_self. apply C.
Qed.

(** ** Order of the features *)

Lemma sort_condition sett c fs :
  known sett -> condition c fs ->
  exists d gs, sort sett c = Ok d /\ condition d gs /\ in_order sett gs /\ Permutation gs fs.
Proof.
  intros K C. destruct (sort_lists sett c fs (proj1 C) (proj1 (proj2 C)) K) as (d & E & L & I).
  exists d, (arranged sett fs). split; auto. split; [eapply condition_sorted; eauto|].
  split; [apply arranged_order; auto; apply C|apply arranged_perm].
Qed.

Lemma satisfied_perm xs r fs gs : Permutation fs gs -> satisfied xs r fs -> satisfied xs r gs.
Proof. intros P S f Hf. apply S. eapply Permutation_in; [symmetry|]; eauto. Qed.

Lemma marks_perm xs fs gs v : Permutation fs gs -> marks xs fs v -> marks xs gs v.
Proof.
  intros P (L & V). split; auto. intros r R. destruct (V r R) as [(A & B)|(A & B)]; [left|right]; split; auto.
  - eapply satisfied_perm; eauto.
  - intros S. apply B. eapply satisfied_perm; [symmetry|]; eauto.
Qed.

Lemma perm_evaluate c d fs gs xs :
  condition c fs -> condition d gs -> Permutation fs gs -> well_shaped xs ->
  evaluate c xs = evaluate d xs.
Proof.
  intros C D P W.
  assert (X : c_imp c = c_imp d).
  { destruct C as (_ & _ & I), D as (_ & _ & J). apply eq_true_iff_eq. rewrite I, J.
    split; apply crossed_perm; auto. symmetry; auto. }
  destruct (c_imp c) eqn:Ic.
  { rewrite !evaluate_flagged by auto. auto. }
  pose proof (unflagged c fs C Ic) as NC. symmetry in X. pose proof (unflagged d gs D X) as ND.
  assert (Dec : (forall f, In f fs -> has_feature xs f) \/ exists f, In f fs /\ ~ has_feature xs f).
  { clear -fs. induction fs as [|f t IH]; [left; intros f []|].
    assert (Df : has_feature xs f \/ ~ has_feature xs f).
    { destruct xs; cbn [has_feature]; [lia|].
      destruct (in_dec string_dec (f_name f) (map fst columns)); auto. }
    destruct Df as [Df|Df]; [|right; exists f; cbn; auto].
    destruct IH as [IH|(g & Hg & IH)]; [|right; exists g; cbn; auto].
    left. intros g [ <- |Hg]; auto. }
  destruct Dec as [H|(f & Hf & H)].
  - assert (NE : (match xs with TFrame _ _ => fs <> [] | TArray _ _ => True end) \/
                 (fs = [] /\ exists n cols, xs = TFrame n cols)).
    { destruct xs; auto. destruct fs; eauto. left. discriminate. }
    destruct NE as [NE|( -> & n & cols & -> )].
    + destruct (evaluate_marks c fs xs C W) as (v & E & M); [split; auto|].
      destruct (evaluate_marks d gs xs D W) as (w & E' & M').
      { split.
        - intros g Hg. apply H. eapply Permutation_in; [symmetry|]; eauto.
        - destruct xs; auto. intros ->. apply NE. apply Permutation_nil. symmetry; auto. }
      rewrite E, E'. f_equal. eapply marks_unique; [|exact M']. eapply marks_perm; eauto.
    + apply Permutation_nil in P. subst. rewrite !evaluate_nothing by auto. auto.
  - rewrite (evaluate_missing c fs xs) by eauto.
    rewrite (evaluate_missing d gs xs); auto. exists f. split; auto. eapply Permutation_in; eauto.
Qed.

Lemma sort_ok sett c fs :
  known sett -> condition c fs ->
  exists d gs, sort sett c = Ok d /\ condition d gs /\ in_order sett gs /\ Permutation gs fs /\
    forall xs, well_shaped xs -> evaluate d xs = evaluate c xs.
Proof.
  intros K C. destruct (sort_condition sett c fs K C) as (d & gs & E & D & O & P).
  exists d, gs. repeat split; auto; try apply D. intros xs W. eapply perm_evaluate; eauto.
Qed.

Lemma look_same fs gs n : NoDup (map f_name fs) -> Permutation fs gs -> same_opt (look fs n) (look gs n).
Proof.
  intros N P. rewrite (look_perm fs gs n N P). destruct (look gs n); cbn; auto using same_feature_refl.
Qed.

Lemma Forall2_eq_in_order sett fs gs :
  in_order sett fs -> in_order sett gs -> distinct fs -> distinct gs -> Permutation fs gs -> fs = gs.
Proof.
  intros O1 O2 D1 D2 P.
  destruct O1 as [ -> S1| -> S1], O2 as [E2 S2|E2 S2]; try discriminate.
  - apply (sorted_unique (fun f g => f_index f < f_index g)); auto.
    + intros x. lia.
    + intros x y z. lia.
    + intros x. split; apply Permutation_in; auto. symmetry; auto.
  - apply (sorted_unique (fun f g => str_ltb (f_name f) (f_name g) = true)); auto.
    + intros x H. rewrite str_ltb_irrefl in H. discriminate.
    + intros x y z. apply str_ltb_trans.
    + intros x. split; apply Permutation_in; auto. symmetry; auto.
Qed.

Lemma lists_det c fs gs : lists c fs -> lists c gs -> fs = gs.
Proof.
  intros (A1 & A2 & A3 & A4) (B1 & B2 & B3 & B4). rewrite A1 in B1. rewrite A2 in B2.
  rewrite A3 in B3. rewrite A4 in B4. injection B1 as B1. injection B2 as B2. injection B3 as B3. injection B4 as B4.
  clear -B1 B2 B3 B4. revert gs B1 B2 B3 B4.
  induction fs as [|f t IH]; intros [|g gs]; cbn [map]; intros; try discriminate; auto.
  injection B1 as ? ?. injection B2 as ? ?. injection B3 as ? ?. injection B4 as ? ?.
  f_equal; auto. destruct f, g; cbn in *; congruence.
Qed.

(** The same features listed in another order give the same condition. *)
Lemma order_irrelevant sett i m x n i' m' x' n' fs gs :
  known sett -> acceptable i m x n fs -> acceptable i' m' x' n' gs -> Permutation fs gs ->
  build sett i m x n false true = build sett i' m' x' n' false true.
Proof.
  intros K A B P.
  destruct (build_sorted sett i m x n fs A K) as (c & E & C).
  destruct (build_sorted sett i' m' x' n' gs B K) as (d & E' & D).
  rewrite E, E'. f_equal.
  assert (DA : distinct fs) by (destruct A; auto). assert (DB : distinct gs) by (destruct B; auto).
  assert (F : arranged sett fs = arranged sett gs).
  { eapply (Forall2_eq_in_order sett); try apply arranged_order; auto; try apply C; try apply D.
    rewrite !arranged_perm. auto. }
  rewrite F in C. destruct C as ((A1 & A2 & A3 & A4) & _ & I), D as ((B1 & B2 & B3 & B4) & _ & J).
  destruct c as [a1 a2 a3 a4 a5], d as [b1 b2 b3 b4 b5]; cbn in *. subst. f_equal.
  apply eq_true_iff_eq. tauto.
Qed.

(** ** Equality *)

(** Same names with the same bounds, in any order, whatever the indexes. *)
Definition same_content (fs gs : list feature) : Prop :=
  (forall f, In f fs -> exists g, In g gs /\ f_name g = f_name f /\
     same_num (f_low f) (f_low g) /\ same_num (f_high f) (f_high g)) /\
  (forall g, In g gs -> exists f, In f fs /\ f_name g = f_name f /\
     same_num (f_low f) (f_low g) /\ same_num (f_high f) (f_high g)).

Lemma hash_num_same H x y : same_num x y -> hash_num H x = hash_num H y.
Proof.
  destruct x, y; cbn [same_num hash_num]; try tauto. intros E. rewrite (Qred_complete _ _ E). auto.
Qed.

Definition hash_feature (H : hashing) (f : feature) : Z :=
  h_tuple H [h_str H (f_name f); hash_num H (f_low f); hash_num H (f_high f)].

Lemma rseq_nth {A B} (l : list A) (g : A -> B) (body : nat -> res B) : forall pre,
  (forall i x, nth_error (pre ++ l) i = Some x -> body i = Ok (g x)) ->
  rseq (map body (seq (List.length pre) (List.length l))) = Ok (map g l).
Proof.
  induction l as [|x t IH]; intros pre H; cbn [List.length seq map rseq]; auto.
  rewrite (H (List.length pre) x) by (rewrite nth_error_app2, Nat.sub_diag by auto; auto).
  cbn [rbind]. specialize (IH (pre ++ [x])). rewrite app_length, <- app_assoc in IH.
  cbn [List.length app] in IH. rewrite Nat.add_1_r in IH. rewrite IH by auto. auto.
Qed.

Lemma to_hash_lists H c fs : lists c fs -> to_hash H c = Ok (h_str H "c" :: map (hash_feature H) fs).
Proof.
  intros (A1 & A2 & A3 & A4). unfold to_hash. rewrite A2, A3, A4. cbn [need rbind].
  rewrite map_length.
  rewrite (rseq_nth fs (hash_feature H) _ []); [auto|].
  cbn [app]. intros i f Hf. unfold at_pos. rewrite !(map_nth_error _ _ _ Hf). auto.
Qed.

Lemma same_content_hashes H fs gs :
  NoDup (map f_name fs) -> NoDup (map f_name gs) -> same_content fs gs ->
  Permutation (map (hash_feature H) fs) (map (hash_feature H) gs).
Proof.
  revert gs. induction fs as [|f t IH]; intros gs N M (A & B).
  - destruct gs as [|g gs]; auto. destruct (B g (or_introl eq_refl)) as (? & [] & _).
  - destruct (A f (or_introl eq_refl)) as (g & Hg & En & S1 & S2).
    apply in_split in Hg. destruct Hg as (l1 & l2 & ->). inversion N; subst.
    rewrite map_app in M. cbn [map] in M. apply NoDup_remove in M. destruct M as (M & NI).
    rewrite map_app. cbn [map]. rewrite <- Permutation_middle.
    assert (hash_feature H f = hash_feature H g) as ->.
    { unfold hash_feature. rewrite En, (hash_num_same H _ _ S1), (hash_num_same H _ _ S2). auto. }
    constructor. rewrite <- map_app. apply IH; auto.
    { rewrite map_app. auto. }
    split.
    + intros f' Hf. destruct (A f' (or_intror Hf)) as (g' & Hg & En' & r). exists g'. split; auto.
      apply in_app_iff. apply in_app_iff in Hg. destruct Hg as [|[ <- |]]; auto.
      exfalso. apply H2. rewrite <- En, En'. apply in_map; auto.
    + intros g' Hg. destruct (B g') as (f' & Hf & En' & r).
      { apply in_app_iff in Hg. apply in_app_iff. destruct Hg; cbn; auto. }
      exists f'. split; auto. destruct Hf as [ <- |Hf]; auto. exfalso. apply NI.
      rewrite <- map_app, En, <- En'. apply in_map; auto.
Qed.

Lemma equal_conditions H c d fs gs :
  unordered H -> condition c fs -> condition d gs -> same_content fs gs ->
  exists h, hash H c = Ok h /\ hash H d = Ok h /\ ceq H c d = Ok true.
Proof.
  intros U C D S. exists (h_set H (h_str H "c" :: map (hash_feature H) fs)).
  assert (E1 : hash H c = Ok (h_set H (h_str H "c" :: map (hash_feature H) fs))).
  { unfold hash. rewrite (to_hash_lists H c fs) by apply C. auto. }
  assert (E2 : hash H d = Ok (h_set H (h_str H "c" :: map (hash_feature H) fs))).
  { unfold hash. rewrite (to_hash_lists H d gs) by apply D. cbn [rmap]. f_equal. apply U. constructor.
    symmetry. apply same_content_hashes; auto; [apply C|apply D]. }
  repeat split; auto. unfold ceq. rewrite E1, E2. cbn [rbind]. rewrite Z.eqb_refl. auto.
Qed.

(** Bounds on which the hash of CPython is the number itself. *)
Definition plain_bounds (fs : list feature) : Prop :=
  forall f, In f fs -> exists a b,
    f_low f = Fin (inject_Z a) /\ f_high f = Fin (inject_Z b) /\
    Z.abs a < 2 ^ 61 - 1 /\ Z.abs b < 2 ^ 61 - 1 /\ a <> -1 /\ b <> -1.

Lemma Qred_inject z : Qred (inject_Z z) = inject_Z z.
Proof. unfold Qred, inject_Z. pose proof (Z.ggcd_gcd z 1) as G. pose proof (Z.ggcd_correct_divisors z 1) as K.
  destruct (Z.ggcd z 1) as (g, (a, b)). cbn in G, K. rewrite Z.gcd_1_r in G. subst g.
  destruct K as (K1 & K2). cbn. rewrite Z.mul_1_l in K1, K2. subst. reflexivity.
Qed.

Lemma hash_plain H z : Z.abs z < 2 ^ 61 - 1 -> z <> -1 -> hash_num H (Fin (inject_Z z)) = z.
Proof.
  intros L N. cbn [hash_num]. rewrite Qred_inject. cbn [inject_Z Qden Qnum].
  change (Z.pos 1 =? 1) with true. cbv iota. unfold hash_int, hash_modulus.
  assert (E : Z.rem z (2 ^ 61 - 1) = z).
  { apply Z.rem_small_iff; lia. }
  rewrite E. destruct (Z.eqb_spec z (-1)); [contradiction|auto].
Qed.

(** The length of a condition that is not complete yet: that of the lists it has. *)
Lemma clen_incomplete c n :
  (forall l, c_names c = Some l -> List.length l = n) ->
  (forall l, c_idx c = Some l -> List.length l = n) ->
  (forall l, c_min c = Some l -> List.length l = n) ->
  (forall l, c_max c = Some l -> List.length l = n) ->
  (c_names c <> None \/ c_idx c <> None \/ c_min c <> None \/ c_max c <> None \/ n = O) ->
  clen c = n.
Proof.
  unfold clen. intros A B C D E.
  destruct (c_names c); auto. destruct (c_idx c); auto. destruct (c_min c); auto. destruct (c_max c); auto.
  destruct E as [E|[E|[E|[E|E]]]]; auto; destruct E; auto.
Qed.

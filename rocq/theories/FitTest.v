(** eval of rulesets with STACKED_FIT. *)
From Coq Require Import List ZArith QArith Bool String Ascii Permutation Lia.
From Coq Require Import List.
From Verif Require Import Base Num Arith CondModel CondSpec CondBase CondMore CondSet ThrModel ThrProofs MetModel MetSpec MetReg MetErr MetClass MetRate RuleModel RuleSpec RuleProofs RuleFit RuleEval RuleValues RuleMisc.
From Verif Require Import PredModel PredSpec PredReg PredStack PredMisc SetModel SetSpec SetBase SetSort SetAct SetAdd SetEq SetMisc FitModel FitSpec FitDrop FitMain FitEval FitStack FitVal.
Import ListNotations.
Open Scope string_scope.
Open Scope list_scope.
Open Scope Z_scope.

(** ** The activations *)

Record looked (E : env) (xs : option table) (new : bool) (s : ruleset) (n : nat) (columns : list (string * list Z)) (f : option (frame Z))
    (s' : ruleset) : Prop := mkLooked {
  lk_rules : if given xs && new then Forall2 (settles E xs) (s_rules s) (s_rules s') else s_rules s' = s_rules s;
  lk_frame : f = Some (mkFrame n columns);
  lk_vectors : if given xs && new then vectors E None (s_rules s') n columns else vectors E xs (s_rules s') n columns;
  lk_stacked : if given xs && negb new then s_stacked s' = s_stacked s else s_stacked s' = Some (mkFrame n columns);
  lk_act : if given xs then (if new then united (s_rules s') (s_act s') else s_act s' = s_act s)
           else if not_stacked s then united (s_rules s') (s_act s') else s_act s' = s_act s;
  lk_same : s_type s' = s_type s /\ s_stack s' = s_stack s /\ s_names s' = s_names s /\ s_idx s' = s_idx s /\
            s_coverage s' = s_coverage s /\ s_criterion s' = s_criterion s /\ s_train s' = s_train s /\ s_test s' = s_test s /\
            s_compute s' = s_compute s }.

Lemma stack_on E t rules n columns : vectors E (Some t) rules n columns -> rules <> [] -> stack E (Some t) rules = Ok (Some (mkFrame n columns)).
Proof.
  intros (F & N & P) Ne. unfold stack. rewrite (by_name_ok E _ rules columns); auto.
  - cbn [rbind].
    assert (L : forall c, In c columns -> List.length (snd c) = n).
    { intros c I. destruct (forall2_in _ _ _ F) as (_ & F2). destruct (F2 c I) as (r & _ & _ & _ & _ & X). auto. }
    destruct columns as [|[s v] cs]; [inversion F; congruence|]. rewrite (L (s, v) (or_introl eq_refl) : List.length v = n).
    replace (forallb (fun c => (List.length (snd c) =? n)%nat) ((s, v) :: cs)) with true; auto.
    symmetry. apply forallb_forall. intros c I. apply Nat.eqb_eq. auto.
  - eapply forall2_weaken; [|exact F]. intros a b (X1 & X2 & _). split; [apply called_name; auto|]. apply evaluated. auto.
Qed.

Lemma look G xs new s n columns f s1 : s_rules s <> [] -> has_rows xs -> ready (g_env G) xs s n columns ->
  eval_activations G xs new s = (Ok f, s1) -> looked (g_env G) xs new s n columns f s1.
Proof.
  intros Ne Rows (V & S) H. unfold eval_activations in H. destruct xs as [t|].
  - destruct new.
    + apply chain_ok in H as (s2 & H & X). injection X as <- <-.
      destruct (prepare_given G t s n columns s2) as [P1 P2 P3 P4 P5]; auto. constructor; auto.
    + apply use_ok in H as (f' & E1 & H). apply use_ok in H as (o & E2 & H). injection H as <- <-.
      unfold evaluate_stacked_activations in E1. destruct (s_rules s) as [|r1 l1] eqn:Er; [congruence|]. rewrite <- Er in *.
      rewrite (stack_on _ _ _ _ _ V Ne) in E1. injection E1 as <-. constructor; cbn; auto. repeat split; auto.
  - apply chain_ok in H as (s2 & H & X). injection X as <- <-. destruct (not_stacked s) eqn:Ns.
    + apply stacking_ok in H as (s3 & H & ->). apply chain_ok in H as (s4 & H1 & H). apply chain_ok in H as (s5 & H2 & H).
      apply use_ok in H1 as (f & Ef & X). injection X as <-. unfold evaluate_stacked_activations in Ef. cbn [s_rules with_stack] in Ef.
      destruct (s_rules s) as [|r1 l1] eqn:Er; [congruence|]. rewrite <- Er in *. rewrite (stack_vectors _ _ _ _ V Ne) in Ef. injection Ef as <-.
      apply use_ok in H2 as (o & O & X). injection X as <-. cbn [not_stacked s_stacked with_activation with_stacked with_stack] in H. injection H as <-.
      constructor; cbn; auto.
      * rewrite Ns. apply evaluate_self_united in O. exact O.
      * repeat split; auto.
    + injection H as <-. unfold not_stacked in Ns. destruct (S eq_refl) as [St|St]; rewrite St in Ns; [discriminate|].
      constructor; cbn; auto; [|repeat split; auto]. unfold not_stacked. rewrite St. auto.
Qed.

(** ** The criteria *)

Definition per_rule (rules : list rule) (columns : list (string * list Z)) (Val : rule -> list Z -> obj -> Prop) (l : list (string * obj)) : Prop :=
  forall i r c, nth_error rules i = Some r -> nth_error columns i = Some c -> exists p, nth_error l i = Some p /\ Val r (snd c) (snd p).

Lemma product_active q v : bits v -> where_active (fun x => same_num x q) NaN v
  (map (fun a => if a =? 0 then NaN else nmul (numz a) q) v).
Proof.
  intros B. induction v as [|a t IH]; cbn [map]; [constructor|]. inversion B as [|? ? [->| -> ] Bt]; subst.
  - apply wa_off. auto.
  - apply wa_on; auto. destruct q; cbn; auto. ring.
Qed.

Lemma series_numbers l s : number_series l = Ok s -> map fst s = map fst l /\
  forall i p, nth_error l i = Some p -> exists x, nth_error s i = Some (fst p, x) /\ forall q, snd p = number q -> x = q.
Proof.
  unfold number_series. destruct (forallb _ l); [discriminate|]. intros H. apply rseq_map_ok in H. split.
  - induction H as [|p q l m X F IH]; auto. cbn. f_equal; auto. destruct (snd p) as [[]| | | |]; try discriminate; injection X as <-; auto.
  - intros i p I. destruct (fa2_nth _ _ _ H i p I) as (q & Q & X). destruct (snd p) as [[]| | | |] eqn:S; try discriminate; injection X as <-; eexists; (split; [exact Q|]);
      intros z Z; try discriminate. injection Z as <-. auto.
Qed.

Lemma nth_mapped {A B} (f : A -> B) l i x : nth_error l i = Some x -> nth_error (map f l) i = Some (f x).
Proof. intros H. apply map_nth_error. auto. Qed.

Lemma dget_nth {A} (l : list (string * A)) : NoDup (map fst l) -> forall i n x, nth_error l i = Some (n, x) -> dget n l = Some x.
Proof.
  induction l as [|(m, z) l IH]; intros N i n x H; [destruct i; discriminate|]. cbn [map fst] in N. inversion N as [|a b N1 N2]; subst.
  destruct i as [|i]; cbn in H.
  - injection H as -> ->. cbn [dget]. unfold str_eqb. rewrite String.eqb_refl. auto.
  - cbn [dget]. destruct (str_eqb n m) eqn:E; [|eapply IH; eauto]. apply String.eqb_eq in E. subst.
    apply nth_error_In in H. destruct N1. apply (in_map fst) in H. auto.
Qed.

Lemma error_series E xs rules n columns y ys kw l : vectors E xs rules n columns -> n = List.length ys -> is_target y (map LNum ys) ->
  (forall r, In r rules -> r_kind r = KRegression) ->
  criterion_series E KRegression rules (mkFrame n columns) y kw "criterion" [] = Ok l ->
  per_rule rules columns (regression_error ys (k_criterion kw)) l.
Proof.
  intros V Ln T Kd H. unfold criterion_series in H. apply rbind_ok in H as (ps & Ep & H).
  change (negb (str_eqb "criterion" "criterion")) with false in H. cbv beta iota in H.
  apply by_name_vectors with (xs := xs) (n := n) (columns := columns) in Ep as (Fp & Np); auto.
  apply rbind_ok in H as (ns & En & H). destruct (series_numbers _ _ En) as (Nn & Vn).
  cbn [f_columns] in H. destruct (negb _) eqn:Nm in H; [discriminate|]. apply negb_false_iff in Nm. apply names_eqb_ok in Nm. cbv zeta in H.
  destruct (number_target_ok y ys T) as (t & Et & It). rewrite Et in H. cbn [rbind] in H. apply rbind_ok in H as (ys' & Eu & H). rewrite (unsqueezed_ok _ _ _ It Eu) in H.
  rewrite frame_times_columns in H. rewrite no_extra in H by auto. rewrite app_nil_r in H. cbn [f_rows f_columns] in H.
  apply rbind_ok in H as (m & Em & H). apply metric_series_ok in H as (s & -> & ->).
  assert (Nd : NoDup (map fst ns)). { rewrite <- Nm. apply V. }
  destruct (criterion_frame (k_criterion kw) n (map (product_column NaN (fun a x => nmul (numz a) x) ns) columns) ys Ln) as [(e & X & _)|(s' & X & F)].
  { intros k v I. apply in_map_iff in I as (c & X & I). unfold product_column in X. injection X as <- <-. destruct c as (cn & cv).
    destruct (vectors_bits _ _ _ _ _ _ _ V I) as (_ & L). cbn. destruct (dget cn ns); rewrite map_length; auto. }
  - congruence.
  - assert (s' = s) as -> by congruence. intros i r c Ir Ic.
    destruct (fa2_nth _ _ _ F i _ (nth_mapped _ _ _ _ Ic)) as (p & Ip & _ & Y). exists (fst p, number (snd p)). split; [apply (nth_mapped (fun c => (fst c, number (snd c)))); auto|].
    intros q Q. cbn [snd]. destruct (fa2_nth _ _ _ Fp i r Ir) as (pr & Ipr & Pr). destruct (Vn i pr Ipr) as (x & Ix & Xq).
    assert (x = q). { apply Xq. assert (In_ : In r rules) by (eapply nth_error_In; eauto). specialize (Kd r In_).
      rewrite getattr_measure in Q by (rewrite Kd; right; right; right; left; auto). change (measure_read r "prediction") with (prediction r) in Q. congruence. }
    subst x. assert (Nc : fst pr = fst c). { assert (Z : map fst ns = map fst columns) by auto. apply (f_equal (fun z => nth_error z i)) in Z.
      rewrite (nth_mapped fst _ _ _ Ix), (nth_mapped fst _ _ _ Ic) in Z. cbn in Z. congruence. }
    unfold product_column in Y. cbn [snd] in Y. rewrite <- Nc in Y. rewrite (dget_nth ns Nd i (fst pr) q Ix) in Y.
    eexists. exists (snd p). split; [|split; [exact Y|auto]]. apply product_active. destruct c as (cn & cv). eapply vectors_bits; [exact V|]. eapply nth_error_In; eauto.
Qed.

Lemma success_series E xs rules n columns y ys kw l : vectors E xs rules n columns -> is_target y ys ->
  (forall r, In r rules -> r_kind r = KClassification) ->
  criterion_series E KClassification rules (mkFrame n columns) y kw "criterion" [] = Ok l ->
  per_rule rules columns (success ys) l.
Proof.
  intros V T Kd H. unfold criterion_series in H. apply rbind_ok in H as (ps & Ep & H).
  change (negb (str_eqb "criterion" "criterion")) with false in H. cbv beta iota in H.
  apply by_name_vectors with (xs := xs) (n := n) (columns := columns) in Ep as (Fp & Np); auto.
  apply rbind_ok in H as (cs & Ec & H). apply rseq_map_ok in Ec. cbn [f_columns f_rows] in H.
  assert (Nc : map fst cs = map fst columns).
  { rewrite <- Np. clear - Ec. induction Ec as [|p q l m X F IH]; auto. cbn. f_equal; auto. destruct (class_of (snd p)); [|discriminate]. injection X as <-. auto. }
  destruct (rate_columns y ys columns cs n (k_criterion kw) T Nc) as (s & Es & Ns & K). { destruct V as (_ & _ & P). lia. }
  rewrite Es in H. cbn [rbind] in H. injection H as <-. intros i r c Ir Ic.
  destruct (fa2_nth _ _ _ Fp i r Ir) as (pr & Ipr & Pr). destruct (fa2_nth _ _ _ Ec i pr Ipr) as (pc & Ipc & X).
  destruct (class_of (snd pr)) as [cl|] eqn:Cl; [|discriminate]. injection X as <-.
  assert (Li : exists e, nth_error s i = Some (fst c, e)).
  { apply (f_equal (fun z => nth_error z i)) in Ns. rewrite (nth_mapped fst _ _ _ Ic) in Ns. apply nth_map in Ns as ((en & e) & E1 & E2). cbn in E2. subst. eauto. }
  destruct Li as (e & Ie). exists (fst c, number e). split; [apply (nth_mapped (fun c => (fst c, number (snd c)))) in Ie; auto|]. cbn [snd].
  exists e. split; auto. intros c0 l j a Pc Pl Cl' Tj Ta.
  assert (c0 = cl).
  { assert (In_ : In r rules) by (eapply nth_error_In; eauto). specialize (Kd r In_).
    rewrite getattr_measure in Pc by (rewrite Kd; right; right; right; left; auto). change (measure_read r "prediction") with (prediction r) in Pc.
    assert (snd pr = class_obj c0) as Z by congruence. rewrite Z in Cl. destruct c0; cbn in Cl; congruence. }
  subst c0. assert (Nn : fst pr = fst c). { apply (f_equal (fun z => nth_error z i)) in Np. rewrite (nth_mapped fst _ _ _ Ic), (nth_mapped fst _ _ _ Ipr) in Np. congruence. }
  rewrite Nn in Ipc. destruct c as (cn & cv). cbn [fst snd] in *.
  destruct (K i cn cv cl e Ic Ipc Ie l j a) as (K1 & K2); auto. { eapply vectors_bits; [exact V|]. eapply nth_error_In; eauto. }
  split; auto. intros Na. destruct (K2 Na) as (x & X1 & X2 & _). eauto.
Qed.

(** ** eval *)

Lemma same_vector r r' : r_kind r' = r_kind r -> r_cond r' = r_cond r -> r_act r' = r_act r -> getattr r' "activation" = getattr r "activation".
Proof.
  intros K C A.
  assert (V : activation_vector r' = activation_vector r) by (unfold activation_vector; rewrite A; auto).
  assert (D : delegated r' "activation" = delegated r "activation") by (unfold delegated; rewrite A, C; auto).
  unfold getattr. rewrite K. destruct (r_kind r); cbn [properties app dget reads]; cbn; rewrite V, D; auto.
Qed.

Section Together.
Variables (G : setup) (k : kind) (y : target label) (xs : option table) (keep_new : bool) (w : option weighting) (force : bool) (kw : keywords)
  (s : ruleset) (n : nat) (columns : list (string * list Z)) (Val : rule -> list Z -> obj -> Prop).
Let E := g_env G.
Hypothesis U : unordered (g_hash G).
Hypothesis F : collision_free (g_hash G).
Hypothesis St : g_stacked G = true.
Hypothesis Sh : g_shared G = false.
Hypothesis Es : evaluates_something s xs kw.
Hypothesis T : s_type s = Some k.
Hypothesis Kd : forall r, In r (s_rules s) -> r_kind r = k.
Hypothesis Rg : forall r, In r (s_rules s) -> regular r.
Hypothesis Rd : ready E xs s n columns.
Hypothesis Vl : forall r r' act o, In r (s_rules s) -> getattr r' "prediction" = getattr r "prediction" -> Val r' act o -> Val r act o.
Hypothesis Sr : forall xs rules l, vectors E xs rules n columns -> target_len y = Ok (Z.of_nat n) -> (forall r, In r rules -> r_kind r = k) ->
  criterion_series E k rules (mkFrame n columns) y kw "criterion" [] = Ok l -> per_rule rules columns Val l.

Lemma together_eval dropped s' : set_eval G y xs keep_new w force kw s = (Ok dropped, s') ->
  exists s0 evaluated s2 s3 new,
    (new = true <-> replaces keep_new s) /\
    Forall2 (evaluated_together E xs (replaces keep_new s) Val dropped) (s_rules s) evaluated /\
    (forall q, In q dropped -> In q evaluated /\ is_bad q) /\
    target_len y = Ok (Z.of_nat n) /\ s' = with_test (integer (Z.of_nat n)) s3 /\
    looked E xs new s n columns (Some (mkFrame n columns)) s0 /\ Forall2 (fun r r' => r_act r' = r_act r) (s_rules s0) evaluated /\
    (let s0' := if (if given xs then new else not_stacked s) && negb (s_stack s) then del_stacked_activations s0 else s0 in
     settled (with_rules evaluated s0') dropped false (no_activation (cleared s0) || (given xs && new)) s2 /\
     (dropped = [] -> s2 = with_rules evaluated s0')) /\
    calc_criterion G y (if new then None else xs) w kw s2 = (Ok tt, s3).
Proof.
  intros H. destruct Es as (L & Ne & Rows & All). destruct (learns_ok _ _ L) as (k' & Lk & T' & _).
  assert (k' = k) as -> by congruence.
  assert (Ta : test_attributes k = ["criterion"]). { destruct L as ([L|L] & _); rewrite T in L; injection L as ->; auto. }
  unfold set_eval in H. rewrite Lk in H. cbn [use] in H. rewrite (rows_given _ Rows) in H.
  destruct (s_rules s) as [|r0 t0] eqn:Rs; [congruence|]. rewrite <- Rs in *.
  assert (B : negb (forallb r_fitted (s_rules s)) && negb (given xs) = false).
  { destruct xs as [t|]; [apply andb_false_r|]. cbn. rewrite andb_true_r. apply negb_false_iff. apply forallb_forall. auto. }
  rewrite B in H. clear B. set (new := keep_new || negb (forallb r_fitted (s_rules s))) in *.
  assert (Nw : new = true <-> replaces keep_new s).
  { unfold new, replaces. rewrite orb_true_iff, negb_true_iff. apply or_iff_compat_l. split.
    - intros K. clear - K. induction (s_rules s) as [|r t IH]; cbn in K; [discriminate|].
      destruct (r_fitted r) eqn:E; [destruct (IH K) as (q & I & J); exists q; cbn; auto|exists r; cbn; auto].
    - intros (r & I & J). destruct (forallb r_fitted (s_rules s)) eqn:K; auto. rewrite forallb_forall in K. rewrite K in J; auto. }
  clearbody new. apply next_ok in H as (drop & s1 & H1 & H).
  unfold eval_rules in H1. rewrite St in *. unfold eval_stacked, eval_assign in H1. cbv zeta in H1. apply next_ok in H1 as (f & s0 & H0 & H1).
  apply look with (n := n) (columns := columns) in H0; auto. rename H0 into P. pose proof (lk_frame _ _ _ _ _ _ _ _ P) as ->.
  apply use_ok in H1 as (attrs & Ea & H1). apply rbind_ok in Ea as (z & Ez & Ea). cbn [f_rows] in Ea.
  destruct (Z.of_nat n =? z) eqn:Zn; [|discriminate]. apply Z.eqb_eq in Zn. subst z.
  rewrite Ta in Ea. cbn [computed_attributes] in Ea. change (str_eqb "criterion" "activation") with false in Ea. cbv beta iota in Ea.
  apply rbind_ok in Ea as (l & El & Ea). cbn [app] in Ea. assert (attrs = [("criterion", l)]) as -> by congruence. clear Ea.
  assert (S0 : Forall2 (fun r r1 => still r r1) (s_rules s) (s_rules s0)).
  { pose proof (lk_rules _ _ _ _ _ _ _ _ P) as X. destruct (given xs && new).
    - eapply forall2_weaken; [|exact X]. intros a b Y. apply (st_still _ _ _ _ Y).
    - rewrite X. clear. induction (s_rules s); constructor; auto. split; auto. }
  assert (Kd0 : forall r, In r (s_rules s0) -> r_kind r = k).
  { intros r I. destruct (forall2_in _ _ _ S0) as (_ & X). destruct (X r I) as (q & J & (Y & _)). rewrite Y. auto. }
  assert (Va : per_rule (s_rules s0) columns Val l).
  { pose proof (lk_vectors _ _ _ _ _ _ _ _ P) as X. destruct (given xs && new); eapply Sr; eauto. }
  set (s0' := if (if given xs then new else not_stacked s) && negb (s_stack s) then del_stacked_activations s0 else s0) in *.
  assert (Rs0 : s_rules s0' = s_rules s0) by (unfold s0'; destruct (_ && _); auto).
  assert (Nd : NoDup (map fst [("criterion", l)])) by (repeat constructor; auto).
  assert (An : [("criterion", l)] <> []) by discriminate.
  destruct (assign_all_ok _ _ _ _ _ _ marks_evaluated Nd An H1) as (E1 & L1 & K1 & D1). rewrite Rs0 in *.
  apply chain_ok in H as (s2 & H2 & H). apply chain_ok in H as (s3 & H3 & H). rewrite Ez in H. cbn [use] in H.
  assert (X : dropped = map snd (numbers_rules (s_rules s1) drop) /\ s' = with_test (integer (Z.of_nat n)) s3) by (injection H as <- <-; auto).
  destruct X as (-> & ->). clear H. set (dr := map snd (numbers_rules (s_rules s1) drop)) in *.
  set (ev := s_rules s1) in *.
  assert (FF : Forall2 (fun r r' => r_act r' = r_act r /\ still r r') (s_rules s0) ev).
  { apply fa2_from_nth; auto. intros i r r' I I'. destruct (K1 i r I) as (li & q & J & An_ & _). assert (q = r') as -> by congruence.
    destruct (an_same _ _ _ _ _ _ _ An_) as [X1 X2 X3 _ _]. split; auto. split; auto. }
  exists s0, ev, s2, s3, new. split; auto. split; [|split; [|split; [|split; [|split; [|split; [|split]]]]]]; auto.
  - apply fa2_from_nth. { rewrite L1. apply (fa2_length _ _ _ S0). }
    intros i r r' I I'.
    assert (Q : exists r1, nth_error (s_rules s0) i = Some r1 /\ (if given xs && new then settles E xs r r1 else r1 = r)).
    { pose proof (lk_rules _ _ _ _ _ _ _ _ P) as X. destruct (given xs && new); [apply (fa2_nth _ _ _ X i r I)|]. rewrite X. eauto. }
    destruct Q as (r1 & J1 & S1). destruct (K1 i r1 J1) as (li & q & J2 & A & Dr). assert (q = r') as -> by congruence. clear J2.
    destruct Rd as ((V0 & _ & P0) & _). destruct (fa2_nth _ _ _ V0 i r I) as (c & Jc & Cc & Wc & Bc & Lc).
    destruct (Va i r1 c J1 Jc) as (p & Ip & Vp).
    destruct (an_values _ _ _ _ _ _ _ A "criterion" l (or_introl eq_refl)) as (nm & v & In_ & Sv). assert (p = (nm, v)) as -> by congruence. cbn [snd] in Vp.
    pose proof (an_same _ _ _ _ _ _ _ A) as Sm. pose proof Sm as [Sk Sc Sa _ _]. cbn [slots map fst] in Sm.
    assert (Ir : In r (s_rules s)) by (eapply nth_error_In; eauto).
    assert (Kr : r_kind r = k) by auto.
    assert (Kr' : r_kind r1 = r_kind r) by (rewrite Kr; apply Kd0; eapply nth_error_In; eauto).
    assert (Cr' : r_cond r1 = r_cond r). { destruct (given xs && new); [apply (st_still _ _ _ _ S1)|congruence]. }
    assert (Mc : In "criterion" (measures k)). { destruct L as ([L|L] & _); rewrite T in L; injection L as ->; cbn; auto 10. }
    assert (Flags : r_fitted r1 = r_fitted r). { destruct (given xs && new); [apply (st_flag _ _ _ _ S1)|congruence]. }
    assert (W1 : worse r r1). { destruct (given xs && new); [apply (st_worse _ _ _ _ S1)|rewrite S1; apply worse_refl]. }
    assert (Rest : forall m, In m (measures (r_kind r)) -> m <> "coverage" -> getattr r1 m = getattr r m).
    { destruct (given xs && new); [apply (st_rest _ _ _ _ S1)|rewrite S1; auto]. }
    split; [congruence|]. split; [congruence|]. split; [rewrite (proj2 (an_flags _ _ _ _ _ _ _ A)); auto|].
    split; [rewrite (proj1 (an_flags _ _ _ _ _ _ _ A)); auto|].
    exists (snd c), v. split; auto. split; [|split; [|split; [|split; [|split; [|split; [|split]]]]]].
    + intros Xn Nn. apply Nw in Nn. assert (Xg : given xs && new = true) by (rewrite Nn; destruct xs; [auto|congruence]). rewrite Xg in S1.
      assert (W' := st_vector _ _ _ _ S1 _ Wc). apply activation_none; [|destruct (snd c); [cbn in Lc; lia|discriminate]].
      destruct W' as (a & X1 & X2). exists a. split; [congruence|auto].
    + intros Nn. assert (X : new = false) by (destruct new; auto; destruct Nn; apply Nw; auto). rewrite X, andb_false_r in S1. subst r1. split.
      * apply same_vector; auto.
      * apply (same_measure ["_criterion"] r r'); auto; [destruct (r_kind r); left; auto|]. intros [X1|[]]. discriminate.
    + rewrite getattr_measure by (rewrite Sk, Kr', Kr; auto). cbn. rewrite <- Sv. auto.
    + eapply Vl; [auto| |exact Vp]. apply Rest; [rewrite Kr; destruct k; cbn; auto 10|discriminate].
    + intros m Im Nn Nc. rewrite (same_measure ["_criterion"] r1 r'); auto; [rewrite Kr'; auto|].
      intros [X|[]]. cbn in X. injection X as X. congruence.
    + intros Bd. apply is_bad_spec in Bd. assert (B1 := w_bad _ _ W1 Bd). split.
      * apply is_bad_spec. apply (w_bad _ _ (an_worse _ _ _ _ _ _ _ A) B1).
      * apply Dr. apply (an_bad _ _ _ _ _ _ _ A An B1).
    + intros Gd. apply is_good_spec in Gd. apply (an_checked _ _ _ _ _ _ _ A An Gd).
    + intros Gd Bd. apply is_good_spec in Gd. apply is_bad_spec in Bd. assert (Kr2 : r_kind r' = r_kind r) by congruence. rewrite <- Kr2. apply guilty_meets.
      destruct (r_good r1) eqn:G1; [apply (an_guilty _ _ _ _ _ _ _ A G1 Bd)|].
      destruct (given xs && new); [|congruence].
      destruct (st_blame _ _ _ _ S1) as [(K2 & _)|Sp]; [congruence|].
      apply (guilty_later E ["_criterion"] r1 r'); auto; [intros [X|[]]; discriminate|]. apply (an_blame _ _ _ _ _ _ _ A G1).
  - intros q Q. destruct (D1 q Q) as (X & Y). split; auto. apply is_bad_spec. auto.
  - eapply forall2_weaken; [|exact FF]. intros a b (X & _). auto.
  - cbv zeta. fold s0'. rewrite <- E1. split.
    + assert (Ac : s_act (cleared s0) = s_act (cleared s1)).
      { rewrite E1. unfold s0', cleared. destruct (_ && _); cbn; destruct (s_act s0); auto. }
      change (no_activation (cleared s0)) with (match s_act (cleared s0) with None => true | Some a => alen a =? 0 end). rewrite Ac. unfold dr.
      eapply (settle_ok G _ (fun o => match o with None => true | Some a => alen a =? 0 end || (given xs && new)) _ s1 s2 k (done s1) false (fun _ => false)); auto.
      * assert (S1 : Forall2 still (s_rules s0) ev) by (eapply forall2_weaken; [|exact FF]; intros a b (_ & X); auto).
        apply (forall2_regular _ _ S1). apply (forall2_regular _ _ S0). auto.
      * intros j q. apply numbers_from.
      * rewrite E1. cbn [s_type with_rules]. unfold s0'. destruct (_ && _); cbn; rewrite (proj1 (lk_same _ _ _ _ _ _ _ _ P)); exact T.
      * apply done_refresh.
      * exact H2.
    + intros Z. unfold dr in Z. apply map_eq_nil in Z. rewrite Z in H2. injection H2 as <-. auto.
Qed.

Lemma together_eval_rest dropped s' : set_eval G y xs keep_new w force kw s = (Ok dropped, s') ->
  s_test s' = integer (Z.of_nat n) /\ s_train s' = s_train s /\
  s_type s' = s_type s /\ s_stack s' = s_stack s /\ s_coverage s' = s_coverage s /\
  (forall f, In f (s_names s) -> In f (s_names s')) /\
  (dropped = [] -> s_names s' = s_names s /\ s_idx s' = s_idx s) /\
  ((xs <> None /\ replaces keep_new s) \/ (dropped = [] /\ in_step s) -> in_step s').
Proof.
  intros H. destruct (together_eval _ _ H) as (s0 & ev & s2 & s3 & new & Nw & A & B & N & -> & Lk & Act & S & C). cbv zeta in S. destruct S as (S & Sn).
  set (s0' := if (if given xs then new else not_stacked s) && negb (s_stack s) then del_stacked_activations s0 else s0) in *.
  assert (X : forall A (f : ruleset -> A), (forall s, f (del_stacked_activations s) = f s) -> f s0' = f s0).
  { intros A0 f K. unfold s0'. destruct (_ && _); auto. }
  destruct Lk as [L1 L2 L3 L4 L5 (M1 & M2 & M3 & M4 & M5 & M6 & M7 & M8 & M9)].
  destruct S as [S1 S2 (D1 & D2 & D3 & D4 & D5 & D6) S4 S5 (S6 & S7)].
  apply criterion_changes in C as (C & Ac); auto. rewrite C. clear C.
  cbn [s_rules s_act s_type s_stack s_coverage s_criterion s_train s_test s_names s_idx with_rules with_train with_test with_criterion with_activation] in *.
  rewrite ?(X _ s_type), ?(X _ s_stack), ?(X _ s_names), ?(X _ s_idx), ?(X _ s_coverage), ?(X _ s_train), ?(X _ s_act) in * by reflexivity.
  do 3 (split; [congruence|]). split; [congruence|]. split; [congruence|].
  split. { intros f I. apply S6. rewrite M3. auto. }
  split. { intros Z. destruct (S4 Z) as (_ & _ & X1 & X2 & _). split; congruence. }
  intros K.
  assert (I2 : in_step s2).
  { destruct dropped as [|q dropped].
    - destruct (S4 eq_refl) as (E1 & E2 & _).
      assert (K0 : in_step s0).
      { destruct xs as [t|]; cbn [given] in *.
        - destruct new; [apply united_in_step; auto|]. destruct K as [(_ & K)|(_ & K)]; [apply Nw in K; discriminate|].
          eapply in_step_fields; [| |exact K]; auto.
        - destruct K as [(K & _)|(_ & K)]; [congruence|]. destruct (not_stacked s).
          + apply united_in_step. auto.
          + eapply in_step_fields; [| |exact K]; auto. }
      eapply in_step_same; [|exact E2|exact K0]. rewrite E1. exact Act.
    - destruct S5 as (S5 & _); [discriminate|]. destruct K as [(K1 & K2)|(K & _)]; [|discriminate].
      apply Nw in K2. subst new. replace (no_activation (cleared s0) || (given xs && true)) with true in S5.
      + apply united_in_step. auto.
      + destruct xs; [|congruence]. symmetry. apply orb_true_r. }
  destruct Ac as [Ac|(Na & Ac)].
  - eapply in_step_fields; [| |exact I2]; auto.
  - apply united_in_step. cbn [s_rules s_act with_rules with_train with_test with_criterion with_activation]. apply evaluate_self_united. auto.
Qed.

End Together.

Lemma eval_together_regression G y ys xs keep_new w force kw s n columns dropped s' :
  unordered (g_hash G) -> collision_free (g_hash G) -> g_stacked G = true -> g_shared G = false -> evaluates_something s xs kw ->
  s_type s = Some KRegression -> (forall r, In r (s_rules s) -> r_kind r = KRegression /\ regular r) ->
  ready (g_env G) xs s n columns -> is_target y (map LNum ys) ->
  set_eval G y xs keep_new w force kw s = (Ok dropped, s') ->
  n = List.length ys /\ exists evaluated,
    Forall2 (evaluated_together (g_env G) xs (replaces keep_new s) (regression_error ys (k_criterion kw)) dropped) (s_rules s) evaluated /\
    (forall q, In q dropped -> In q evaluated /\ is_bad q) /\
    chosen (fun r => forall q, In q dropped -> ~ same_rule q r) evaluated (s_rules s').
Proof.
  intros U F St Sh Es T K Rd Y H.
  destruct (together_eval G KRegression y xs keep_new w force kw s n columns (regression_error ys (k_criterion kw)) U F St Es T) with (dropped := dropped) (s' := s')
    as (s0 & ev & s2 & s3 & new & Nw & A & B & N & E1 & P & Q & S & C); auto.
  - intros r I. apply K. auto.
  - intros r I. apply K. auto.
  - intros r r' act o I E V q Hq. apply V. rewrite E. auto.
  - intros xs0 rules l V Tl Kd El. rewrite (target_len_ok _ _ Y) in Tl. injection Tl as Tl. rewrite map_length in Tl.
    eapply error_series; eauto. lia.
  - rewrite (target_len_ok _ _ Y) in N. injection N as N. rewrite map_length in N. split; [lia|].
    exists ev. split; auto. split; auto. apply criterion_changes in C as (C & _); auto. rewrite E1, C.
    cbv zeta in S. exact (se_kept _ _ _ _ _ (proj1 S)).
Qed.

Lemma eval_together_classification G y ys xs keep_new w force kw s n columns dropped s' :
  unordered (g_hash G) -> collision_free (g_hash G) -> g_stacked G = true -> g_shared G = false -> evaluates_something s xs kw ->
  s_type s = Some KClassification -> (forall r, In r (s_rules s) -> r_kind r = KClassification /\ regular r) ->
  ready (g_env G) xs s n columns -> is_target y ys ->
  set_eval G y xs keep_new w force kw s = (Ok dropped, s') ->
  n = List.length ys /\ exists evaluated,
    Forall2 (evaluated_together (g_env G) xs (replaces keep_new s) (success ys) dropped) (s_rules s) evaluated /\
    (forall q, In q dropped -> In q evaluated /\ is_bad q) /\
    chosen (fun r => forall q, In q dropped -> ~ same_rule q r) evaluated (s_rules s').
Proof.
  intros U F St Sh Es T K Rd Y H.
  destruct (together_eval G KClassification y xs keep_new w force kw s n columns (success ys) U F St Es T) with (dropped := dropped) (s' := s')
    as (s0 & ev & s2 & s3 & new & Nw & A & B & N & E1 & P & Q & S & C); auto.
  - intros r I. apply K. auto.
  - intros r I. apply K. auto.
  - intros r r' act o I E (e & V1 & V2). exists e. split; auto. intros c l j a Hq. apply V2. rewrite E. auto.
  - intros xs0 rules l V Tl Kd El. eapply success_series; eauto.
  - rewrite (target_len_ok _ _ Y) in N. injection N as N. split; [lia|].
    exists ev. split; auto. split; auto. apply criterion_changes in C as (C & _); auto. rewrite E1, C.
    cbv zeta in S. exact (se_kept _ _ _ _ _ (proj1 S)).
Qed.

Lemma eval_together_rest G y ys xs keep_new w force kw s n columns k dropped s' :
  unordered (g_hash G) -> collision_free (g_hash G) -> g_stacked G = true -> g_shared G = false -> evaluates_something s xs kw ->
  s_type s = Some k -> (forall r, In r (s_rules s) -> r_kind r = k /\ regular r) ->
  ready (g_env G) xs s n columns -> is_target y ys -> (k = KRegression -> exists zs, ys = map LNum zs) ->
  set_eval G y xs keep_new w force kw s = (Ok dropped, s') ->
  s_test s' = integer (Z.of_nat (List.length ys)) /\ s_train s' = s_train s /\
  s_type s' = s_type s /\ s_stack s' = s_stack s /\ s_coverage s' = s_coverage s /\
  (forall f, In f (s_names s) -> In f (s_names s')) /\
  (dropped = [] -> s_names s' = s_names s /\ s_idx s' = s_idx s) /\
  ((xs <> None /\ replaces keep_new s) \/ (dropped = [] /\ in_step s) -> in_step s').
Proof.
  intros U F St Sh Es T K Rd Y Nm H.
  assert (Kk : k = KRegression \/ k = KClassification). { destruct Es as (([L|L] & _) & _); rewrite T in L; injection L as ->; auto. }
  destruct Kk as [->| ->].
  - destruct (Nm eq_refl) as (zs & ->). destruct (eval_together_regression _ _ _ _ _ _ _ _ _ _ _ _ _ U F St Sh Es T K Rd Y H) as (L & _).
    rewrite map_length, <- L.
    eapply (together_eval_rest G KRegression y xs keep_new w force kw s n columns (regression_error zs (k_criterion kw))) with (dropped := dropped); eauto.
    + intros r I. apply K. auto.
    + intros r I. apply K. auto.
    + intros r r' act o I E V q Hq. apply V. rewrite E. auto.
    + intros xs0 rules l V Tl Kd El. eapply error_series; eauto.
  - destruct (eval_together_classification _ _ _ _ _ _ _ _ _ _ _ _ _ U F St Sh Es T K Rd Y H) as (L & _). rewrite <- L.
    eapply (together_eval_rest G KClassification y xs keep_new w force kw s n columns (success ys)) with (dropped := dropped); eauto.
    + intros r I. apply K. auto.
    + intros r I. apply K. auto.
    + intros r r' act o I E (e & V1 & V2). exists e. split; auto. intros c l j a Hq. apply V2. rewrite E. auto.
    + intros xs0 rules l V Tl Kd El. eapply success_series; eauto.
Qed.

(** ** The criterion of the ruleset *)

Lemma eval_last G y xs keep_new w force kw s dropped s' : evaluates_something s xs kw ->
  set_eval G y xs keep_new w force kw s = (Ok dropped, s') ->
  exists new s2 s3 n, (new = true <-> replaces keep_new s) /\ calc_criterion G y (if new then None else xs) w kw s2 = (Ok tt, s3) /\
    s' = with_test n s3.
Proof.
  intros (L & Ne & Rows & All) H. destruct (learns_ok _ _ L) as (k & Lk & T & _).
  unfold set_eval in H. rewrite Lk in H. cbn [use] in H. rewrite (rows_given _ Rows) in H.
  destruct (s_rules s) as [|r0 t0] eqn:Rs; [congruence|]. rewrite <- Rs in *.
  assert (B : negb (forallb r_fitted (s_rules s)) && negb (given xs) = false).
  { destruct xs as [t|]; [apply andb_false_r|]. cbn. rewrite andb_true_r. apply negb_false_iff. apply forallb_forall. auto. }
  rewrite B in H. clear B. set (new := keep_new || negb (forallb r_fitted (s_rules s))) in *.
  assert (Nw : new = true <-> replaces keep_new s).
  { unfold new, replaces. rewrite orb_true_iff, negb_true_iff. apply or_iff_compat_l. split.
    - intros K. clear - K. induction (s_rules s) as [|r t IH]; cbn in K; [discriminate|].
      destruct (r_fitted r) eqn:E; [destruct (IH K) as (q & I & J); exists q; cbn; auto|exists r; cbn; auto].
    - intros (r & I & J). destruct (forallb r_fitted (s_rules s)) eqn:K; auto. rewrite forallb_forall in K. rewrite K in J; auto. }
  clearbody new. apply next_ok in H as (drop & s1 & H1 & H). apply chain_ok in H as (s2 & H2 & H). apply chain_ok in H as (s3 & H3 & H).
  apply use_ok in H as (n & N & H). injection H as _ <-. exists new, s2, s3, (integer n). auto.
Qed.

Lemma eval_criterion_regression G y ys xs keep_new w force kw s dropped s' :
  g_shared G = false -> evaluates_something s xs kw -> s_type s' = Some KRegression -> s_rules s' <> [] -> is_target y (map LNum ys) ->
  set_eval G y xs keep_new w force kw s = (Ok dropped, s') ->
  exists on, (replaces keep_new s -> on = None) /\ (~ replaces keep_new s -> on = xs) /\
    ((exists p, fst (set_predict G on w s') = Ok p /\ (p = Empty \/ p = Numbers [] \/ p = Outcomes []) /\ s_criterion s' = nan) \/
     (exists l m, fst (set_predict G on w s') = Ok (Numbers l) /\ l <> [] /\
        calc_regression_criterion (VSeries l) ys (k_criterion kw) = Ok (MNum m) /\ s_criterion s' = number m)).
Proof.
  intros Sh Es T Ne Y H. destruct (eval_last _ _ _ _ _ _ _ _ _ _ Es H) as (new & s2 & s3 & n & Nw & C & ->).
  exists (if new then None else xs). split. { intros K. apply Nw in K. subst. auto. }
  split. { intros K. destruct new; auto. destruct K. apply Nw. auto. }
  pose proof (criterion_changes _ _ _ _ _ _ _ Sh C) as (E & _).
  assert (P : forall o, fst (set_predict G o w (with_test n s3)) = fst (set_predict G o w s2)).
  { intros o. apply predict_fields; rewrite E; auto. }
  rewrite P. cbn [s_type s_rules s_criterion with_test] in *. rewrite E in T, Ne. cbn [s_type s_rules with_criterion with_activation] in T, Ne.
  apply (criterion_regression G y ys _ w kw s2 s3) in C; auto. apply C.
Qed.

Lemma eval_criterion_classification G y xs keep_new w force kw s dropped s' :
  g_shared G = false -> evaluates_something s xs kw -> s_type s' = Some KClassification -> s_rules s' <> [] ->
  set_eval G y xs keep_new w force kw s = (Ok dropped, s') ->
  exists on, (replaces keep_new s -> on = None) /\ (~ replaces keep_new s -> on = xs) /\
    ((exists p, fst (set_predict G on w s') = Ok p /\ (p = Empty \/ p = Numbers [] \/ p = Outcomes []) /\ s_criterion s' = nan) \/
     (exists l v, fst (set_predict G on w s') = Ok (Outcomes (map Class l)) /\ l <> [] /\
        match on with
        | None => set_vector s' = Ok (Some v)
        | Some t => (forall r v, In r (s_rules s') -> working r (Some t) v -> bits v) -> covers_on t (s_rules s') v
        end /\
        ((exists m, calc_classification_criterion (ActArray v) (List.length v) (QSeries l) y (k_criterion kw) = Ok (RNum m) /\ s_criterion s' = number m) \/
         (calc_classification_criterion (ActArray v) (List.length v) (QSeries l) y (k_criterion kw) = Ok REmpty /\ s_criterion s' = other)))).
Proof.
  intros Sh Es T Ne H. destruct (eval_last _ _ _ _ _ _ _ _ _ _ Es H) as (new & s2 & s3 & n & Nw & C & ->).
  exists (if new then None else xs). split. { intros K. apply Nw in K. subst. auto. }
  split. { intros K. destruct new; auto. destruct K. apply Nw. auto. }
  pose proof (criterion_changes _ _ _ _ _ _ _ Sh C) as (E & _).
  assert (P : forall o, fst (set_predict G o w (with_test n s3)) = fst (set_predict G o w s2)).
  { intros o. apply predict_fields; rewrite E; auto. }
  rewrite P. cbn [s_type s_rules s_criterion with_test] in *. rewrite E in T, Ne. cbn [s_type s_rules with_criterion with_activation] in T, Ne.
  assert (Rr : s_rules s3 = s_rules s2) by (rewrite E; auto).
  apply (criterion_classification G y _ w kw s2 s3) in C; auto. destruct C as (_ & _ & _ & C). rewrite Rr. exact C.
Qed.

(** Without rules the criterion stays what it was. *)
Lemma eval_no_rule G y xs keep_new w force kw s dropped s' :
  unordered (g_hash G) -> collision_free (g_hash G) -> g_stacked G = false -> g_shared G = false -> evaluates_something s xs kw ->
  (forall r, In r (s_rules s) -> regular r) ->
  set_eval G y xs keep_new w force kw s = (Ok dropped, s') -> s_rules s' = [] -> s_criterion s' = s_criterion s.
Proof.
  intros U F St Sh Es R H N. destruct (eval_settled _ _ _ _ _ _ _ _ _ _ U F St Sh Es R H) as (ev & n & s2 & s3 & new & Nw & A & B & _ & -> & S & C).
  pose proof (criterion_changes _ _ _ _ _ _ _ Sh C) as (E & _). cbn [s_rules s_criterion with_test] in *. rewrite E in N. cbn [s_rules with_criterion with_activation] in N.
  unfold calc_criterion in C. rewrite N in C. injection C as <-. destruct (se_rest _ _ _ _ _ S) as (_ & K & _). exact K.
Qed.

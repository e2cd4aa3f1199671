(** fit of rulesets with STACKED_FIT: the values of the attributes. *)
From Coq Require Import List ZArith QArith Bool String Ascii Permutation Lia.
From Coq Require Import List.
From Verif Require Import Base Num Arith CondModel CondSpec CondBase CondMore CondSet ThrModel ThrProofs MetModel MetSpec MetReg MetErr MetClass MetRate RuleModel RuleSpec RuleProofs RuleFit RuleEval RuleValues RuleMisc.
From Verif Require Import PredModel PredSpec PredReg PredStack PredMisc SetModel SetSpec SetBase SetSort SetAct SetAdd SetEq SetMisc FitModel FitSpec FitDrop FitMain FitStack.
Import ListNotations.
Open Scope string_scope.
Open Scope list_scope.
Open Scope Z_scope.

(** ** The stacked activations *)

Lemma stack_vectors E rules n columns : vectors E None rules n columns -> rules <> [] -> stack E None rules = Ok (Some (mkFrame n columns)).
Proof.
  intros (F & N & P) Ne. unfold stack.
  replace (forallb activation_available rules) with true.
  2: { symmetry. apply forallb_forall. intros r I. destruct (forall2_in _ _ _ F) as (F1 & _). destruct (F1 r I) as (c & _ & _ & W & _).
       apply working_act in W as (a & A & H & _). unfold activation_available. rewrite A. auto. }
  rewrite (by_name_ok E _ rules columns); auto.
  - cbn [rbind]. assert (L : forall c, In c columns -> List.length (snd c) = n).
    { intros c I. destruct (forall2_in _ _ _ F) as (_ & F2). destruct (F2 c I) as (r & _ & _ & _ & _ & X). auto. }
    destruct columns as [|(s, v) cs]; [inversion F; congruence|]. rewrite (L (s, v) (or_introl eq_refl) : List.length v = n).
    replace (forallb (fun c => (List.length (snd c) =? n)%nat) ((s, v) :: cs)) with true; auto.
    symmetry. apply forallb_forall. intros c I. apply Nat.eqb_eq. auto.
  - eapply forall2_weaken; [|exact F]. intros r c (X1 & X2 & _ & X3). split; [apply called_name; auto|].
    apply working_act in X2 as (a & A & H & Ev). unfold activation_vector. rewrite A. unfold alen. rewrite Ev, X3.
    replace (Z.of_nat n =? 0) with false by (symmetry; apply Z.eqb_neq; lia). unfold raw. rewrite H, Ev. auto.
Qed.

Lemma stacking_ok f s s' : while_stacking f s = (Ok tt, s') -> exists s1, f (with_stack true s) = (Ok tt, s1) /\ s' = with_stack (s_stack s) s1.
Proof. unfold while_stacking. intros H. apply chain_ok in H as (s1 & H1 & H). injection H as <-. eauto. Qed.

(** The rule with the vector it has on [xs] *)
Record settles (E : env) (xs : option table) (r r' : rule) : Prop := mkSettles {
  st_still : still r r';
  st_blame : RuleFit.kept r r' \/ spoilt E ["coverage"] r';
  st_flag : r_evaluated r' = r_evaluated r /\ r_fitted r' = r_fitted r;
  st_rest : forall m, In m (measures (r_kind r)) -> m <> "coverage" -> getattr r' m = getattr r m;
  st_worse : worse r r';
  st_vector : forall v, working r xs v -> working r' None v }.

(** The ruleset before the attributes are computed *)
Record prepared (E : env) (xs : option table) (s : ruleset) (n : nat) (columns : list (string * list Z)) (s' : ruleset) : Prop := mkPrepared {
  pr_rules : Forall2 (settles E xs) (s_rules s) (s_rules s');
  pr_frame : s_stacked s' = Some (mkFrame n columns);
  pr_vectors : vectors E None (s_rules s') n columns;
  pr_act : if given xs then united (s_rules s') (s_act s') else s_act s' = s_act s /\ s_rules s' = s_rules s;
  pr_same : s_type s' = s_type s /\ s_stack s' = s_stack s /\ s_names s' = s_names s /\ s_idx s' = s_idx s /\
            s_coverage s' = s_coverage s /\ s_criterion s' = s_criterion s /\ s_train s' = s_train s /\ s_test s' = s_test s /\
            s_compute s' = s_compute s }.

Lemma settles_refl E r : settles E None r r.
Proof. constructor; auto; [split; auto|left; split; auto|apply worse_refl]. Qed.

Lemma vectors_settle E xs l m n columns : Forall2 (settles E xs) l m -> vectors E xs l n columns -> vectors E None m n columns.
Proof.
  intros S (F & N & P). split; [|auto]. revert columns F N. induction S as [|r r' l m X S IH]; intros columns F N; inversion F as [|a c b d (Y1 & Y2 & Y3 & Y4) F']; subst; constructor.
  - split; [|split; [|auto]].
    + destruct Y1 as (k & fs & Rk & Z). exists k, fs. destruct X as [(_ & C) _ _ _ _ _]. rewrite C. auto.
    + apply (st_vector _ _ _ _ X). auto.
  - apply IH; auto. cbn in N. inversion N; auto.
Qed.

Lemma calc_flag E xs r r' : calc_activation E xs r = (Ok tt, r') -> r_evaluated r' = r_evaluated r /\ r_fitted r' = r_fitted r.
Proof.
  unfold calc_activation. destruct xs as [t|]; [|destruct (r_act r); [|discriminate]; intros X; injection X as <-; auto].
  destruct (nrows t =? 0)%nat; [intros X; injection X as <-; auto|]. intros H. destruct (evaluate_activation r t); [|discriminate].
  cbn [step] in H. apply check_keeps in H as (_ & _ & -> & -> & _). auto.
Qed.

Lemma calc_settles E t r r' : nrows t <> 0%nat -> calc_activation E (Some t) r = (Ok tt, r') -> settles E (Some t) r r'.
Proof.
  intros N C. pose proof (worse_calc_activation E (Some t) r) as W. rewrite C in W.
  destruct (calc_given _ _ _ _ C N) as (c & act & Rc & Ev & D). cbv zeta in D. destruct D as (D & Bl). pose proof D as [D1 D2 D3 D4 D5].
  constructor; auto; [split; auto|eapply calc_flag; eauto| |].
  - intros m I Nc. rewrite !getattr_measure by (rewrite ?D1; auto). unfold measure_read, prediction. apply String.eqb_neq in Nc.
    unfold str_eqb. rewrite Nc, D1. cbn [r_kind put_time put with_act].
    assert (S : forall x, In x (measures (r_kind r)) -> slot ("_" ++ x)%string r' = slot ("_" ++ x)%string r).
    { intros x Ix. rewrite (same_slot _ _ _ _ D) by auto. unfold put_time. rewrite slot_put_other; auto.
      intros X. change ("_" ++ x)%string with (String "_" x) in X. injection X as ->. destruct (r_kind r); cbn in Ix; intuition discriminate. }
    destruct (String.eqb m "prediction") eqn:P; [apply String.eqb_eq in P; subst m; rewrite (S _ I : slot "_prediction" r' = slot "_prediction" r); auto|].
    rewrite S; auto.
  - intros v (c' & Rc' & Ev'). assert (c' = c) as -> by congruence. assert (act = v) as -> by congruence.
    exists (new_activation v). split; auto.
Qed.

Lemma prepare_given G t s n columns s1 : s_rules s <> [] -> nrows t <> 0%nat -> vectors (g_env G) (Some t) (s_rules s) n columns ->
  while_stacking (set_calc_activation G t) s = (Ok tt, s1) -> prepared (g_env G) (Some t) s n columns s1.
Proof.
  intros Ne Rows V H. apply stacking_ok in H as (s2 & H & ->). unfold set_calc_activation in H. cbn [s_rules with_stack] in H.
  destruct (s_rules s) as [|r0 t0] eqn:R; [congruence|]. rewrite <- R in *. clear R r0 t0.
  pose proof Rows as Rw. apply Nat.eqb_neq in Rw. rewrite Rw in H.
  apply chain_ok in H as (s3 & H1 & H). apply chain_ok in H as (s4 & H2 & H3).
  apply fitted_forall in H1 as (E1 & F1). cbn [s_rules with_stack] in F1. set (rules := s_rules s3) in *. clearbody rules. subst s3.
  apply use_ok in H2 as (o & O & X). injection X as <-. cbn [s_stack with_activation with_rules with_stack] in H3.
  assert (S : Forall2 (settles (g_env G) (Some t)) (s_rules s) rules). { eapply forall2_weaken; [|exact F1]. intros r r'. apply calc_settles. auto. }
  assert (V' := vectors_settle _ _ _ _ _ _ S V).
  assert (Nr : rules <> []). { intros ->. inversion S. congruence. }
  apply use_ok in H3 as (f & Ef & X). injection X as <-. unfold evaluate_stacked_activations in Ef. cbn [s_rules with_stacked with_activation with_rules] in Ef.
  destruct rules as [|r1 l1] eqn:Er; [congruence|]. rewrite <- Er in *. rewrite (stack_vectors _ _ _ _ V' Nr) in Ef. injection Ef as <-.
  constructor; cbn; auto.
  - apply evaluate_self_united in O. exact O.
  - repeat split; auto.
Qed.

Lemma prepare_none G s n columns s1 : s_rules s <> [] -> vectors (g_env G) None (s_rules s) n columns ->
  s_stacked s = None \/ s_stacked s = Some (mkFrame n columns) ->
  (if not_stacked s then while_stacking (compute_stacked_activation G None) s else done s) = (Ok tt, s1) -> prepared (g_env G) None s n columns s1.
Proof.
  intros Ne V St H. assert (S : Forall2 (settles (g_env G) None) (s_rules s) (s_rules s)).
  { clear. induction (s_rules s); constructor; auto. apply settles_refl. }
  destruct (not_stacked s) eqn:Ns.
  - apply stacking_ok in H as (s2 & H & ->). apply use_ok in H as (f & Ef & X). injection X as <-.
    unfold evaluate_stacked_activations in Ef. cbn [s_rules with_stack] in Ef.
    destruct (s_rules s) as [|r1 l1] eqn:Er; [congruence|]. rewrite <- Er in *. rewrite (stack_vectors _ _ _ _ V Ne) in Ef. injection Ef as <-.
    constructor; cbn; auto; repeat split; auto.
  - injection H as <-. unfold not_stacked in Ns. destruct St as [St|St]; rewrite St in Ns; [discriminate|].
    constructor; cbn; auto; repeat split; auto.
Qed.

Lemma prepare G s xs n columns s1 : s_rules s <> [] -> has_rows xs -> ready (g_env G) xs s n columns ->
  match xs with
  | Some t => while_stacking (set_calc_activation G t) s
  | None => if not_stacked s then while_stacking (compute_stacked_activation G None) s else done s
  end = (Ok tt, s1) -> prepared (g_env G) xs s n columns s1.
Proof. intros Ne Rows (V & S) H. destruct xs as [t|]; [apply prepare_given|apply prepare_none]; auto. Qed.

(** ** The Series of an attribute *)

Lemma by_name_vectors {A} E xs (f : rule -> res A) rules n columns l : vectors E xs rules n columns -> by_name E f rules = Ok l ->
  Forall2 (fun r p => f r = Ok (snd p)) rules l /\ map fst l = map fst columns.
Proof.
  intros (F & N & _) H.
  assert (X : exists l', Forall2 (fun r p => rule_name E r = Ok (fst p) /\ f r = Ok (snd p)) rules l' /\ map fst l' = map fst columns).
  { unfold by_name in H. destruct (rseq _) as [m|] eqn:R; [|discriminate]. apply rseq_map_ok in R. clear H N l. revert columns F.
    induction R as [|r p rules m X R IH]; intros columns F; inversion F as [|a c b d (Y1 & _) F']; subst; [exists []; auto|].
    destruct (IH _ F') as (l' & L1 & L2). apply called_name in Y1. rewrite Y1 in X. cbn [rbind] in X. destruct (f r) as [v|] eqn:Fr; [|discriminate].
    exists ((fst c, v) :: l'). split; [constructor; auto|]. cbn. f_equal. auto. }
  destruct X as (l' & L1 & L2). rewrite (by_name_ok E f rules l') in H; auto; [|rewrite L2; auto]. injection H as <-. split; auto.
  eapply forall2_weaken; [|exact L1]. intros r p (_ & X). auto.
Qed.

Lemma metric_series_ok m l : metric_series m = Ok l -> exists s, m = MSeries s /\ l = map (fun c => (fst c, number (snd c))) s.
Proof. destruct m; cbn; intros H; [discriminate|]. injection H as <-. eauto. Qed.

Lemma nth_map {A B} (f : A -> B) l i y : nth_error (map f l) i = Some y -> exists x, nth_error l i = Some x /\ y = f x.
Proof.
  revert i. induction l as [|a l IH]; intros [|i] H; cbn in *; try discriminate; auto. injection H as <-. eauto.
Qed.

Lemma number_series_map l s : number_series (map (fun c : string * num => (fst c, number (snd c))) l) = Ok s -> s = l.
Proof.
  unfold number_series. destruct (forallb _ _); [discriminate|]. intros H. rewrite map_map in H. cbn in H. apply rseq_map_ok in H.
  induction H as [|(a, x) b l m X F IH]; auto. cbn in X. injection X as <-. f_equal; auto.
Qed.

Lemma names_eqb_ok a b : names_eqb a b = true -> a = b.
Proof.
  unfold names_eqb. revert b. induction a as [|x a IH]; intros [|y b] H; cbn in H; try discriminate; auto.
  apply andb_true_iff in H as (H1 & H2). apply String.eqb_eq in H1. subst. f_equal. auto.
Qed.

(** The Series [l] gives each rule of [columns] a value that satisfies [P] *)
Definition gives_all {A} (columns : list (string * list Z)) (P : list Z -> A -> Prop) (l : list (string * A)) : Prop :=
  Forall2 (fun c p => fst c = fst p /\ P (snd c) (snd p)) columns l.

Lemma gives_impl {A} columns (P Q : list Z -> A -> Prop) l : gives_all columns P l ->
  (forall n act o, In (n, act) columns -> P act o -> Q act o) -> gives_all columns Q l.
Proof.
  unfold gives_all. intros F. induction F as [|(n, act) p columns l (E & X) F IH]; intros H; constructor.
  - split; auto. eapply H; [left; reflexivity|]. auto.
  - apply IH. intros m a o I. apply (H m). right; auto.
Qed.

Lemma gives_number columns (P : list Z -> num -> Prop) l : gives_all columns P l ->
  gives_all columns (fun act o => exists x, o = number x /\ P act x) (map (fun p => (fst p, number (snd p))) l).
Proof. unfold gives_all. intros H. induction H as [|c p columns m (E & X) F IH]; constructor; auto. cbn. split; eauto. Qed.

Lemma gives_label columns (P : list Z -> label -> Prop) l : gives_all columns P l ->
  gives_all columns (fun act o => exists x, o = class_obj x /\ P act x) (map (fun p => (fst p, label_obj (snd p))) l).
Proof. unfold gives_all. intros H. induction H as [|c p columns m (E & X) F IH]; constructor; auto. cbn. split; eauto. Qed.

Lemma vectors_bits E xs rules n columns m act : vectors E xs rules n columns -> In (m, act) columns -> bits act /\ List.length act = n.
Proof. intros (F & _) I. destruct (forall2_in _ _ _ F) as (_ & K). destruct (K _ I) as (r & _ & _ & _ & B & L). auto. Qed.

Lemma sizes_series E rules n columns y l z : vectors E None rules n columns -> target_len y = Ok z -> train_sizes E rules y = Ok l ->
  gives_all columns (fun _ o => o = integer z) l.
Proof.
  intros V T H. unfold train_sizes in H. rewrite T in H. cbn [rbind] in H. apply by_name_vectors with (xs := None) (n := n) (columns := columns) in H as (F & N); auto.
  destruct V as (V & _). unfold gives_all. clear T. revert l F N. induction V as [|r c rules columns X V IH]; intros l F N; inversion F as [|a b d e Y F']; subst; [constructor|].
  injection N as N1 N2. constructor; auto. split; auto. congruence.
Qed.

Lemma mean_none act ys x : bits act -> List.length act = List.length ys -> tally (eq 1) act 0 ->
  conditional_mean (ActArray act) (YVector ys) = Ok (MNum x) -> x = NaN.
Proof.
  intros B L T H. destruct (picks_exist act ys L) as (l & P). rewrite (conditional_mean_array (YVector ys) ys act l) in H; auto; [|left; auto].
  assert (l = []) as ->; [|cbn in H; congruence]. clear H L x. induction P as [|a x act y l N P IH|x act y l P IH]; auto.
  - inversion B as [|b c Hb B']; subst. inversion T; subst. exfalso. lia.
  - inversion B; subst. inversion T; subst. apply IH; auto.
Qed.

Lemma target_twice {A} y (ys zs : list A) : is_target y ys -> is_target y zs -> ys = zs.
Proof. intros [->| -> ] [H|H]; congruence. Qed.

Lemma mean_series (st : frame Z) y ys l : is_target y (map LNum ys) -> (forall n act, In (n, act) (f_columns st) -> List.length act = List.length ys) ->
  calc_predictions KRegression st y = Ok l ->
  exists s, l = map (fun p => (fst p, number (snd p))) s /\
    gives_all (f_columns st) (fun act x => conditional_mean (ActArray act) (YVector ys) = Ok (MNum x)) s.
Proof.
  intros T L H. cbn [calc_predictions] in H. destruct (number_target_ok y ys T) as (t & Et & It). rewrite Et in H. cbn [rbind] in H.
  destruct (mean_stacked t ys (f_columns st) It L) as (s & E & F). rewrite E in H. cbn [rbind metric_series] in H. injection H as <-.
  exists s. split; auto. eapply forall2_weaken; [|exact F]. intros c e (X & Y). split; auto. rewrite (mean_target t ys _ It) in Y. auto.
Qed.

Lemma std_series E (st : frame Z) y ys l : is_target y (map LNum ys) -> (forall n act, In (n, act) (f_columns st) -> bits act) ->
  calc_stds E KRegression st y = Ok l ->
  gives_all (f_columns st) (fun act o => exists x, o = number x /\ forall l qs, picks act ys l -> values l qs ->
     ((List.length qs <= 1)%nat -> x = e_sqrt E NaN) /\
     ((2 <= List.length qs)%nat -> exists w, x = e_sqrt E (Fin w) /\ variance 1 qs w)) l.
Proof.
  intros T B H. cbn [calc_stds] in H. destruct (number_target_ok y ys T) as (t & Et & It). rewrite Et in H. cbn [rbind] in H.
  destruct (std_stacked (e_sqrt E) t ys (f_columns st) It) as (s & Es & F). rewrite Es in H. cbn [rbind metric_series] in H. injection H as <-.
  apply (gives_number _ (fun act x => forall l qs, bits act -> picks act ys l -> values l qs ->
     ((List.length qs <= 1)%nat -> x = e_sqrt E NaN) /\
     ((2 <= List.length qs)%nat -> exists w, x = e_sqrt E (Fin w) /\ variance 1 qs w))) in F.
  eapply gives_impl; [exact F|]. intros n act o I (x & -> & X). exists x. split; auto. intros l0 qs P V. apply (X l0 qs); auto. eapply B; eauto.
Qed.

Lemma sign_series columns P s l : gives_all columns P s -> calc_signs KRegression (map (fun p => (fst p, number (snd p))) s) = Ok l ->
  gives_all columns (fun act o => exists x, P act x /\ ((nlt x (Fin 0) /\ o = text "-") \/ (~ nlt x (Fin 0) /\ o = text "+"))) l.
Proof.
  intros F H. cbn [calc_signs] in H. rewrite map_map in H. apply rseq_map_ok in H. unfold gives_all in *. revert l H.
  induction F as [|c p columns s (E & X) F IH]; intros l H; inversion H as [|a b d e Y H']; subst; constructor; auto.
  cbn in Y. injection Y as <-. cbn. split; auto. exists (snd p). split; auto.
  destruct (nltb (snd p) (Fin 0)) eqn:N; [left|right]; split; auto.
  - apply nltb_spec. auto.
  - intros K. apply nltb_spec in K. congruence.
Qed.

Lemma zscore_series E rules n columns y ys h s l : vectors E None rules n columns -> n = List.length ys -> is_target y (map LNum ys) ->
  gives_all columns (fun act x => conditional_mean (ActArray act) (YVector ys) = Ok (MNum x)) s ->
  set_zscores E KRegression rules (map (fun p => (fst p, number (snd p))) s) y h = Ok l ->
  gives_all columns (fun act o => exists x ones, conditional_mean (ActArray act) (YVector ys) = Ok (MNum x) /\ tally (eq 1) act ones /\
     o = number (calc_zscore (e_sqrt E) x true (Z.of_nat ones) ys h)) l.
Proof.
  intros V Ln T G H. cbn [set_zscores] in H. apply rbind_ok in H as (counts & Ec & H). apply by_name_vectors with (xs := None) (n := n) (columns := columns) in Ec as (Fc & Nc); auto.
  apply rbind_ok in H as (s' & Es & H). apply number_series_map in Es. subst s'.
  destruct (number_target_ok y ys T) as (t & Et & It). rewrite Et in H. cbn [rbind] in H. rewrite (flat_ok _ _ It) in H. cbn [rbind] in H.
  destruct (names_eqb (map fst s) (map fst counts)); [|discriminate]. injection H as <-.
  assert (Ns : map fst s = map fst columns). { clear - G. unfold gives_all in G. induction G as [|c p columns s (E & _) G IH]; cbn; f_equal; auto. }
  assert (X : Forall2 (fun c p => fst c = fst p /\ exists ones, snd p = Z.of_nat ones /\ tally (eq 1) (snd c) ones) columns counts).
  { destruct V as (F & _). clear - F Fc Nc. revert counts Fc Nc. induction F as [|r c rules columns (Y1 & Y2 & _) F IH]; intros counts Fc Nc;
      inversion Fc as [|a b d e Y Fc']; subst; constructor; auto.
    - injection Nc as N1 N2. split; auto. apply working_act in Y2 as (a & A & _ & Ev). rewrite A in Y. injection Y as Y. rewrite <- Y.
      eexists. split; [reflexivity|]. rewrite <- Ev. apply tally_ones.
    - apply IH; auto. injection Nc; auto. }
  assert (B : forall m act, In (m, act) columns -> bits act /\ List.length act = List.length ys).
  { intros m act I. destruct (vectors_bits _ _ _ _ _ _ _ V I). split; congruence. }
  clear V Fc Nc Ns Et It T. unfold gives_all in *. revert counts X. induction G as [|c p columns s (Y1 & Y2) G IH]; intros counts X;
    inversion X as [|a q d e (Z1 & ones & Z2 & Z3) X']; subst; constructor.
  - cbn [fst snd]. split; [auto|]. exists (snd p), ones. split; auto. split; auto. f_equal. rewrite Z2.
    destruct ones as [|k].
    + destruct (B (fst c) (snd c)) as (Bc & Lc); [left; destruct c; auto|]. rewrite (mean_none _ _ _ Bc Lc Z3 Y2).
      destruct (zscore_special (e_sqrt E) NaN 0 ys h) as (_ & Z8 & Z9); change (Z.of_nat 0) with 0; rewrite Z9. symmetry; exact Z8.
    + replace (Z.of_nat (S k) =? 0) with false by (symmetry; apply Z.eqb_neq; lia). unfold calc_zscore. cbn [andb]. auto.
  - apply IH; auto. intros m act I. apply (B m). right; auto.
Qed.

(** The attributes of regression rules *)
Lemma regression_series E rules n columns y ys kw attrs : vectors E None rules n columns -> n = List.length ys -> is_target y (map LNum ys) ->
  computed_attributes (train_series E KRegression rules (mkFrame n columns) y kw) (train_attributes KRegression) [] = Ok attrs ->
  map fst attrs = train_attributes KRegression /\
  forall a l, In (a, l) attrs -> gives_all columns (fun act o => stacked_value E act ys (k_horizon kw) a o) l.
Proof.
  intros V Ln T H. cbn [train_attributes] in H. cbn [computed_attributes] in H.
  assert (B : forall m act, In (m, act) columns -> bits act /\ List.length act = List.length ys).
  { intros m act I. destruct (vectors_bits _ _ _ _ _ _ _ V I). split; congruence. }
  repeat match type of H with (if ?c then Err EValue else ?e) = _ => change (e = Ok attrs) in H; apply rbind_ok in H; destruct H as (?l & ? & H) end.
  cbn in H. injection H as <-. split; auto.
  change (train_series _ _ _ _ _ _ "train_set_size" []) with (train_sizes E rules y) in H0.
  match type of H1 with train_series ?a ?b ?c ?d ?e ?f ?g ?h = _ => change (calc_predictions KRegression (mkFrame n columns) y = Ok l0) in H1 end.
  change (calc_stds E KRegression (mkFrame n columns) y = Ok l1) in H2.
  change (calc_signs KRegression l0 = Ok l2) in H3.
  change (set_zscores E KRegression rules l0 y (k_horizon kw) = Ok l3) in H4.
  apply sizes_series with (n := n) (columns := columns) (z := Z.of_nat (List.length ys)) in H0; auto.
  2: { rewrite (target_len_ok y (map LNum ys)); auto. rewrite map_length. auto. }
  apply mean_series with (ys := ys) in H1 as (s & -> & H1); auto. 2: { intros m act I. apply (B m act I). }
  apply std_series with (ys := ys) in H2; auto. 2: { intros m act I. apply (B m act I). }
  cbn [f_columns] in H1, H2. apply sign_series with (columns := columns) (1 := H1) in H3.
  apply zscore_series with (n := n) (columns := columns) (ys := ys) in H4; auto.
  intros a lz I. cbn in I. repeat destruct I as [I|I]; try (injection I as <- <-); [| | | | |destruct I].
  - eapply gives_impl; [exact H0|]. intros m act o _ ->. left. split; [discriminate|]. left. auto.
  - eapply gives_impl; [apply gives_number; exact H1|]. intros m act o _ (x & -> & X). left. split; [discriminate|]. right. left. eauto.
  - eapply gives_impl; [exact H2|]. intros m act o _ (x & -> & X). right. eauto.
  - eapply gives_impl; [exact H3|]. intros m act o _ (x & X & Y). left. split; [discriminate|]. do 3 right. left. eauto.
  - eapply gives_impl; [exact H4|]. intros m act o _ (x & ones & X & Y & ->). left. split; [discriminate|]. do 4 right. eauto 6.
Qed.

Lemma classification_series E rules n columns y ys kw attrs : vectors E None rules n columns -> is_target y ys -> clear_classes ys columns ->
  computed_attributes (train_series E KClassification rules (mkFrame n columns) y kw) (train_attributes KClassification) [] = Ok attrs ->
  map fst attrs = train_attributes KClassification /\
  forall a l, In (a, l) attrs -> gives_all columns (fun act o => stacked_class act ys a o) l.
Proof.
  intros V T C H. cbn [train_attributes] in H. cbn [computed_attributes] in H.
  repeat match type of H with (if ?c then Err EValue else ?e) = _ => change (e = Ok attrs) in H; apply rbind_ok in H; destruct H as (?l & ? & H) end.
  cbn in H. injection H as <-. split; auto.
  change (train_sizes E rules y = Ok l) in H0. change (calc_predictions KClassification (mkFrame n columns) y = Ok l0) in H1.
  apply sizes_series with (n := n) (columns := columns) (z := Z.of_nat (List.length ys)) in H0; auto; [|apply target_len_ok; auto].
  cbn [calc_predictions f_columns] in H1. destruct (stacked_predictions y ys columns T) as (s & Es & F).
  { intros m act I. destruct (vectors_bits _ _ _ _ _ _ _ V I). split; auto. apply (C m act I). }
  rewrite Es in H1. cbn [rmap] in H1. injection H1 as <-.
  intros a l' I. cbn in I. repeat destruct I as [I|I]; try (injection I as <- <-); [| |destruct I].
  - eapply gives_impl; [exact H0|]. intros m act o _ ->. left. auto.
  - apply (gives_label columns (fun act x => forall l, picks act ys l -> majority l x)) in F.
    eapply gives_impl; [exact F|]. intros m act o _ (x & -> & X). right. eauto.
Qed.

(** ** fit *)

Lemma done_refresh G s : done s = refresh G false (fun _ => false) s.
Proof. unfold refresh. cbn [chain done]. rewrite andb_false_r. auto. Qed.

(** A rule that the stacked fit leaves *)
Lemma activation_none r act : working r None act -> act <> [] -> getattr r "activation" = Ok (OInts act).
Proof. intros (a & A & R) N. eapply activation_read; eauto. Qed.

Lemma train_read r n : In n (train_attributes (r_kind r)) -> (forall p, slot "_prediction" r <> OTable p) ->
  getattr r n = Ok (slot ("_" ++ n)%string r).
Proof.
  intros I P. rewrite getattr_measure by (apply train_nodup; auto).
  unfold measure_read, prediction. destruct (r_kind r); cbn [train_attributes In] in I;
    repeat (destruct I as [<-|I]; [cbn; auto; destruct (slot "_prediction" r) eqn:S; auto; exfalso; eapply P; eauto|]); contradiction.
Qed.

Lemma guilty_later E names r r' : same_but names r r' -> spoilt E ["coverage"] r -> ~ In "_coverage" names -> r_bad r' = r_bad r -> guilty E r'.
Proof.
  intros S (n & [<-|[]] & G & B & D) N Bd. exists "coverage". split; [congruence|].
  assert (K := sb_kind _ _ _ S). split.
  - destruct D as (th & T & (row & R) & _). exists th, row. rewrite K. auto.
  - intros I. apply (denied_same E _ r); auto. apply (same_measure names r r'); auto. rewrite <- K. auto.
Qed.

Section Together.
Variables (G : setup) (k : kind) (y : target label) (series : bool) (xs : option table) (force : bool) (kw : keywords) (s : ruleset)
  (n : nat) (columns : list (string * list Z)) (names : list string) (Val : list Z -> string -> obj -> Prop).
Let E := g_env G.
Hypothesis U : unordered (g_hash G).
Hypothesis F : collision_free (g_hash G).
Hypothesis St : g_stacked G = true.
Hypothesis Fs : fits_something s xs kw.
Hypothesis T : s_type s = Some k.
Hypothesis Kd : forall r, In r (s_rules s) -> r_kind r = k.
Hypothesis Rg : forall r, In r (s_rules s) -> regular r.
Hypothesis Rd : ready E xs s n columns.
Hypothesis Nm : names = train_attributes k.
Hypothesis Ne : names <> [].
Hypothesis Nt : forall act o, Val act "prediction" o -> forall p, o <> OTable p.
Hypothesis Pn : In "prediction" names.
Hypothesis Sr : forall rules attrs, vectors E None rules n columns -> target_len y = Ok (Z.of_nat n) ->
  computed_attributes (train_series E k rules (mkFrame n columns) y kw) (train_attributes k) [] = Ok attrs ->
  map fst attrs = train_attributes k /\ forall a l, In (a, l) attrs -> gives_all columns (fun act o => Val act a o) l.

Lemma together_rules dropped s' : set_fit G y series xs force kw s = (Ok dropped, s') ->
  exists s0 fitted s2,
    Forall2 (fitted_together E xs names Val dropped) (s_rules s) fitted /\
    (forall q, In q dropped -> In q fitted /\ is_bad q) /\
    target_len y = Ok (Z.of_nat n) /\ s' = with_train (integer (Z.of_nat n)) s2 /\
    prepared E xs s n columns s0 /\ Forall2 (fun r r' => r_act r' = r_act r) (s_rules s0) fitted /\
    settled (with_rules fitted (if (given xs || not_stacked s) && negb (s_stack s) then del_stacked_activations s0 else s0)) dropped false true s2 /\
    (dropped = [] -> s2 = with_rules fitted (if (given xs || not_stacked s) && negb (s_stack s) then del_stacked_activations s0 else s0)).
Proof.
  intros H. destruct Fs as (L & Nr & Rows & Some_). destruct (learns_ok _ _ L) as (k' & Lk & T' & _).
  assert (k' = k) as -> by congruence.
  unfold set_fit in H. rewrite Lk in H. cbn [use] in H. rewrite (rows_given _ Rows) in H.
  destruct (s_rules s) as [|r0 t0] eqn:Rs; [congruence|]. rewrite <- Rs in *.
  assert (B : forallb r_fitted (s_rules s) && negb (given xs) = false).
  { destruct xs as [t|]; [apply andb_false_r|]. cbn. rewrite andb_true_r. destruct (forallb r_fitted (s_rules s)) eqn:B; auto.
    rewrite forallb_forall in B. destruct (Some_ eq_refl) as (r & I & J). rewrite B in J; auto. }
  rewrite B in H. clear B. apply next_ok in H as (drop & s1 & H1 & H).
  unfold fit_rules in H1. rewrite St in *. unfold fit_stacked, fit_activations, fit_assign in H1. cbv zeta in H1. apply chain_ok in H1 as (s0 & H0 & H1).
  assert (P : prepared E xs s n columns s0) by (apply prepare; auto).
  apply use_ok in H1 as (attrs & Ea & H1). rewrite (pr_frame _ _ _ _ _ _ P) in Ea. apply rbind_ok in Ea as (z & Ez & Ea). cbn [f_rows] in Ea.
  destruct (Z.of_nat n =? z) eqn:Zn; [|discriminate]. apply Z.eqb_eq in Zn. subst z.
  destruct (Sr _ _ (pr_vectors _ _ _ _ _ _ P) Ez Ea) as (Na & Va).
  set (s0' := if (given xs || not_stacked s) && negb (s_stack s) then del_stacked_activations s0 else s0) in *.
  assert (Rs0 : s_rules s0' = s_rules s0) by (unfold s0'; destruct (_ && _); auto).
  assert (Nd : NoDup (map fst attrs)) by (rewrite Na; apply train_nodup).
  assert (An : attrs <> []). { intros ->. cbn in Na. congruence. }
  destruct (assign_all_ok _ _ _ _ _ _ marks_fitted Nd An H1) as (E1 & L1 & K1 & D1). rewrite Rs0 in *.
  set (dr := map snd (numbers_rules (s_rules s1) drop)) in *.
  apply chain_ok in H as (s2 & H2 & H). rewrite Ez in H. cbn [use] in H. assert (X : dropped = dr /\ s' = with_train (integer (Z.of_nat n)) s2) by (injection H as <- <-; auto).
  destruct X as (-> & ->). clear H. subst dr. set (dr := map snd (numbers_rules (s_rules s1) drop)) in *.
  set (fitted := s_rules s1) in *.
  assert (Sl : ~ In "_coverage" (slots attrs)).
  { intros I. unfold slots in I. apply in_map_iff in I as ((a & l) & X & I). cbn in X. injection X as ->.
    apply (in_map fst) in I. rewrite Na in I. cbn in I. destruct k; cbn in I; intuition discriminate. }
  assert (FF : Forall2 (fun r r' => r_act r' = r_act r /\ still r r') (s_rules s0) fitted).
  { apply fa2_from_nth; auto. intros i r r' I I'. destruct (K1 i r I) as (l & q & J & An_ & _). assert (q = r') as -> by congruence.
    destruct (an_same _ _ _ _ _ _ _ An_) as [X1 X2 X3 _ _]. split; auto. split; auto. }
  exists s0, fitted, s2. split; [|split; [|split; [|split; [|split; [|split; [|split]]]]]]; auto.
  - apply fa2_from_nth. { rewrite L1. apply (fa2_length _ _ _ (pr_rules _ _ _ _ _ _ P)). }
    intros i r r' I I'. destruct (fa2_nth _ _ _ (pr_rules _ _ _ _ _ _ P) i r I) as (r1 & J1 & S1).
    destruct (K1 i r1 J1) as (l & q & J2 & A & Dr). assert (q = r') as -> by congruence. clear J2.
    destruct (pr_vectors _ _ _ _ _ _ P) as (V & _ & P0). destruct (fa2_nth _ _ _ V i r1 J1) as (c & Jc & Cc & Wc & Bc & Lc).
    destruct Rd as ((V0 & _) & _). destruct (fa2_nth _ _ _ V0 i r I) as (c' & Jc' & Cc' & Wc' & _). assert (c' = c) as -> by congruence.
    pose proof (an_same _ _ _ _ _ _ _ A) as Sm. pose proof Sm as [Sk Sc Sa _ _]. destruct (st_still _ _ _ _ S1) as (Sk1 & Sc1).
    assert (Kr : r_kind r = k) by (apply Kd; eapply nth_error_In; eauto).
    assert (Vals : forall a, In a names -> exists o, slot ("_" ++ a)%string r' = o /\ Val (snd c) a o).
    { intros a Ia. rewrite Nm, <- Na in Ia. apply in_map_iff in Ia as ((a' & sa) & X & Ia). cbn in X. subst a'.
      destruct (an_values _ _ _ _ _ _ _ A a sa Ia) as (nm & v & X & Y). exists v. split; auto.
      assert (Gv := Va a sa Ia). destruct (fa2_nth _ _ _ Gv i c Jc) as (q & Q & _ & W). assert (q = (nm, v)) as -> by congruence. auto. }
    assert (Read : forall a, In a names -> getattr r' a = Ok (slot ("_" ++ a)%string r')).
    { intros a Ia. apply train_read.
      - rewrite Sk, Sk1, Kr, <- Nm. auto.
      - destruct (Vals "prediction" Pn) as (o & X & Y). cbn in X. rewrite X. eapply Nt. eauto. }
    split; [congruence|]. split; [congruence|]. split; [rewrite (proj1 (an_flags _ _ _ _ _ _ _ A)); auto|].
    split; [rewrite (proj2 (an_flags _ _ _ _ _ _ _ A)); apply (proj1 (st_flag _ _ _ _ S1))|].
    exists (snd c). split; auto. split; [|split; [|split; [|split; [|split]]]].
    + apply activation_none; [|destruct (snd c); [cbn in Lc; lia|discriminate]]. destruct Wc as (a & X1 & X2). exists a. split; [congruence|auto].
    + intros a Ia. destruct (Vals a Ia) as (o & X & Y). exists o. rewrite Read by auto. rewrite X. auto.
    + intros m Im Nn Nc. rewrite (same_measure (slots attrs) r1 r'); auto.
      * apply (st_rest _ _ _ _ S1); auto.
      * rewrite Sk1. auto.
      * intros Is. unfold slots in Is. apply in_map_iff in Is as ((a & l') & X & Is). cbn [fst] in X. apply app_inj_str in X. subst a.
        apply Nn. rewrite Nm, <- Na. apply (in_map fst) in Is. auto.
    + intros Bd. apply is_bad_spec in Bd. assert (B1 := w_bad _ _ (st_worse _ _ _ _ S1) Bd). split.
      * apply is_bad_spec. apply (w_bad _ _ (an_worse _ _ _ _ _ _ _ A) B1).
      * apply Dr. apply (an_bad _ _ _ _ _ _ _ A An B1).
    + intros Gd. apply is_good_spec in Gd. apply (an_checked _ _ _ _ _ _ _ A An Gd).
    + intros Gd Bd. apply is_good_spec in Gd. apply is_bad_spec in Bd. assert (Kr' : r_kind r' = r_kind r) by congruence. rewrite <- Kr'. apply guilty_meets.
      destruct (r_good r1) eqn:G1; [apply (an_guilty _ _ _ _ _ _ _ A G1 Bd)|].
      destruct (st_blame _ _ _ _ S1) as [(K2 & _)|Sp]; [congruence|].
      apply (guilty_later E (slots attrs) r1 r'); auto. apply (an_blame _ _ _ _ _ _ _ A G1).
  - intros q Q. destruct (D1 q Q) as (X & Y). split; auto. apply is_bad_spec. auto.
  - eapply forall2_weaken; [|exact FF]. intros a b (X & _). auto.
  - change (settled (with_rules fitted s0') dr false true s2). rewrite <- E1. unfold dr.
    eapply (settle_ok G _ (fun _ => true) (fun _ => true) s1 s2 k (done s1) false (fun _ => false)); auto.
    + assert (S1 : Forall2 still (s_rules s0) fitted) by (eapply forall2_weaken; [|exact FF]; intros a b (_ & X); auto).
      assert (S2 : Forall2 still (s_rules s) (s_rules s0)) by (eapply forall2_weaken; [|exact (pr_rules _ _ _ _ _ _ P)]; intros a b X; apply (st_still _ _ _ _ X)).
      apply (forall2_regular _ _ S1). apply (forall2_regular _ _ S2). auto.
    + intros j q. apply numbers_from.
    + rewrite E1. cbn [s_type with_rules]. unfold s0'. destruct (_ && _); cbn; rewrite (proj1 (pr_same _ _ _ _ _ _ P)); exact T.
    + apply done_refresh.
  - intros Z. unfold dr in Z. apply map_eq_nil in Z. rewrite Z in H2. injection H2 as <-. exact E1.
Qed.

Lemma together_rest dropped s' : set_fit G y series xs force kw s = (Ok dropped, s') ->
  s_train s' = integer (Z.of_nat n) /\ s_test s' = s_test s /\ s_criterion s' = s_criterion s /\
  s_type s' = s_type s /\ s_stack s' = s_stack s /\ s_coverage s' = s_coverage s /\
  (forall f, In f (s_names s) -> In f (s_names s')) /\
  (dropped = [] -> s_names s' = s_names s /\ s_idx s' = s_idx s) /\
  (dropped = [] -> s_stack s = true -> s_stacked s' = Some (mkFrame n columns)) /\
  (s_stack s = false -> xs <> None \/ s_stacked s = None \/ dropped <> [] -> s_stacked s' = None) /\
  (in_step s \/ xs <> None \/ dropped <> [] -> in_step s').
Proof.
  intros H. destruct (together_rules dropped s' H) as (s0 & fitted & s2 & A & B & N & -> & P & Q & S & Sn).
  set (c := (given xs || not_stacked s) && negb (s_stack s)) in *.
  destruct S as [S1 S2 (D1 & D2 & D3 & D4 & D5 & D6) S4 S5 (S6 & S7)].
  destruct (pr_same _ _ _ _ _ _ P) as (P1 & P2 & P3 & P4 & P5 & P6 & P7 & P8 & P9).
  pose proof (pr_frame _ _ _ _ _ _ P) as Pf.
  assert (C : let q := if c then del_stacked_activations s0 else s0 in s_type q = s_type s0 /\ s_stack q = s_stack s0 /\ s_names q = s_names s0 /\
     s_idx q = s_idx s0 /\ s_coverage q = s_coverage s0 /\ s_criterion q = s_criterion s0 /\ s_train q = s_train s0 /\ s_test q = s_test s0 /\
     s_act q = s_act s0 /\ s_stacked q = if c then None else s_stacked s0).
  { destruct c; cbn; repeat split; auto. }
  cbv zeta in C. destruct C as (C1 & C2 & C3 & C4 & C5 & C6 & C7 & C8 & C9 & C10).
  cbn [s_rules s_act s_type s_stack s_coverage s_criterion s_train s_test s_names s_idx s_stacked with_rules with_train] in *.
  rewrite C1, C2, C3, C4, C5, C6, C7, C8, C9, C10 in *. rewrite P1, P2, P3, P4, P5, P6, P7, P8 in *.
  do 7 (split; auto). split. { intros Z. destruct (S4 Z) as (_ & _ & X1 & X2 & _). auto. }
  split. { intros Z K. rewrite (Sn Z). cbn [s_stacked with_rules]. rewrite C10, Pf. unfold c. rewrite K, andb_false_r. auto. }
  split. { intros K Z. assert (D : dropped = [] \/ dropped <> []) by (destruct dropped; [left; auto|right; discriminate]).
    destruct D as [D|D]; [|destruct (S5 D) as (_ & X); auto].
    destruct (S4 D) as (_ & _ & _ & _ & X). rewrite X by auto. replace c with true; auto. unfold c. rewrite K.
    destruct Z as [Z|[Z|Z]]; [destruct xs; [auto|congruence]|unfold not_stacked; rewrite Z, orb_true_r; auto|congruence]. }
  intros K. assert (X : in_step s2 -> in_step (with_train (integer (Z.of_nat n)) s2)) by (intros X; exact X). apply X. clear X.
  destruct dropped as [|q dropped].
  - destruct (S4 eq_refl) as (E1 & E2 & _). pose proof (pr_act _ _ _ _ _ _ P) as Pa. destruct xs as [t|] eqn:Xs; cbn [given] in Pa.
    + apply united_in_step in Pa. eapply in_step_same; [|exact E2|exact Pa]. rewrite E1. auto.
    + destruct K as [K|[K|K]]; [|congruence|congruence]. destruct Pa as (Pa1 & Pa2). eapply in_step_same; [| |exact K]; [|congruence].
      rewrite E1, <- Pa2. auto.
  - destruct S5 as (S5 & _); [discriminate|]. apply united_in_step. auto.
Qed.

End Together.

(** ** The theorems *)

Lemma fit_together_regression G y ys series xs force kw s n columns dropped s' :
  unordered (g_hash G) -> collision_free (g_hash G) -> g_stacked G = true -> fits_something s xs kw -> s_type s = Some KRegression ->
  (forall r, In r (s_rules s) -> r_kind r = KRegression /\ regular r) -> ready (g_env G) xs s n columns -> is_target y (map LNum ys) ->
  set_fit G y series xs force kw s = (Ok dropped, s') ->
  n = List.length ys /\ exists fitted,
    Forall2 (fitted_together (g_env G) xs ["train_set_size"; "prediction"; "std"; "sign"; "zscore"]
               (fun act a o => stacked_value (g_env G) act ys (k_horizon kw) a o) dropped) (s_rules s) fitted /\
    (forall q, In q dropped -> In q fitted /\ is_bad q) /\
    chosen (fun r => forall q, In q dropped -> ~ same_rule q r) fitted (s_rules s').
Proof.
  intros U F St Fs T K Rd Y H.
  edestruct (together_rules G KRegression y series xs force kw s n columns ["train_set_size"; "prediction"; "std"; "sign"; "zscore"]
    (fun act a o => stacked_value (g_env G) act ys (k_horizon kw) a o)) as (s0 & fitted & s2 & A & B & N & E1 & P & Q & S & Sn); eauto.
  - intros r I. apply K. auto.
  - intros r I. apply K. auto.
  - discriminate.
  - intros act o [(_ & V)|(V & _)]; [|discriminate]. destruct V as [(V & _)|[(_ & m & _ & ->)|[(V & _)|[(V & _)|(V & _)]]]]; discriminate.
  - right. left. auto.
  - intros rules attrs V Tl Ea. eapply regression_series; eauto. rewrite (target_len_ok _ _ Y) in Tl. injection Tl as Tl. rewrite map_length in Tl. lia.
  - rewrite (target_len_ok _ _ Y) in N. injection N as N. rewrite map_length in N. split; [lia|].
    exists fitted. split; auto. split; auto. rewrite E1. exact (se_kept _ _ _ _ _ S).
Qed.

Lemma fit_together_classification G y ys series xs force kw s n columns dropped s' :
  unordered (g_hash G) -> collision_free (g_hash G) -> g_stacked G = true -> fits_something s xs kw -> s_type s = Some KClassification ->
  (forall r, In r (s_rules s) -> r_kind r = KClassification /\ regular r) -> ready (g_env G) xs s n columns -> is_target y ys ->
  clear_classes ys columns -> set_fit G y series xs force kw s = (Ok dropped, s') ->
  n = List.length ys /\ exists fitted,
    Forall2 (fitted_together (g_env G) xs ["train_set_size"; "prediction"] (fun act a o => stacked_class act ys a o) dropped) (s_rules s) fitted /\
    (forall q, In q dropped -> In q fitted /\ is_bad q) /\
    chosen (fun r => forall q, In q dropped -> ~ same_rule q r) fitted (s_rules s').
Proof.
  intros U F St Fs T K Rd Y C H.
  edestruct (together_rules G KClassification y series xs force kw s n columns ["train_set_size"; "prediction"]
    (fun act a o => stacked_class act ys a o)) as (s0 & fitted & s2 & A & B & N & E1 & P & Q & S & Sn); eauto.
  - intros r I. apply K. auto.
  - intros r I. apply K. auto.
  - discriminate.
  - intros act o [(V & _)|(_ & c & -> & _)]; [discriminate|]. destruct c; discriminate.
  - right. left. auto.
  - intros rules attrs V Tl Ea. eapply classification_series; eauto.
  - rewrite (target_len_ok _ _ Y) in N. injection N as N. split; [lia|].
    exists fitted. split; auto. split; auto. rewrite E1. exact (se_kept _ _ _ _ _ S).
Qed.

Lemma fit_together_rest G y ys series xs force kw s n columns dropped s' :
  unordered (g_hash G) -> collision_free (g_hash G) -> g_stacked G = true -> fits_something s xs kw ->
  (s_type s = Some KRegression /\ (exists zs, ys = map LNum zs) \/ s_type s = Some KClassification /\ clear_classes ys columns) ->
  (forall r, In r (s_rules s) -> s_type s = Some (r_kind r) /\ regular r) -> ready (g_env G) xs s n columns -> is_target y ys ->
  set_fit G y series xs force kw s = (Ok dropped, s') ->
  s_train s' = integer (Z.of_nat n) /\ s_test s' = s_test s /\ s_criterion s' = s_criterion s /\
  s_type s' = s_type s /\ s_stack s' = s_stack s /\ s_coverage s' = s_coverage s /\
  (forall f, In f (s_names s) -> In f (s_names s')) /\
  (dropped = [] -> s_names s' = s_names s /\ s_idx s' = s_idx s) /\
  (dropped = [] -> s_stack s = true -> s_stacked s' = Some (mkFrame n columns)) /\
  (s_stack s = false -> xs <> None \/ s_stacked s = None \/ dropped <> [] -> s_stacked s' = None) /\
  (in_step s \/ xs <> None \/ dropped <> [] -> in_step s').
Proof.
  intros U F St Fs [(T & zs & ->)|(T & C)] K Rd Y H.
  - eapply (together_rest G KRegression y series xs force kw s n columns ["train_set_size"; "prediction"; "std"; "sign"; "zscore"]
      (fun act a o => stacked_value (g_env G) act zs (k_horizon kw) a o)); eauto.
    + intros r I. destruct (K r I). congruence.
    + intros r I. apply K. auto.
    + discriminate.
    + intros act o [(_ & V)|(V & _)]; [|discriminate]. destruct V as [(V & _)|[(_ & m & _ & ->)|[(V & _)|[(V & _)|(V & _)]]]]; discriminate.
    + right. left. auto.
    + intros rules attrs V Tl Ea. eapply regression_series; eauto. rewrite (target_len_ok _ _ Y) in Tl. injection Tl as Tl. rewrite map_length in Tl. lia.
  - eapply (together_rest G KClassification y series xs force kw s n columns ["train_set_size"; "prediction"]
      (fun act a o => stacked_class act ys a o)); eauto.
    + intros r I. destruct (K r I). congruence.
    + intros r I. apply K. auto.
    + discriminate.
    + intros act o [(V & _)|(_ & c & -> & _)]; [discriminate|]. destruct c; discriminate.
    + right. left. auto.
    + intros rules attrs V Tl Ea. eapply classification_series; eauto.
Qed.

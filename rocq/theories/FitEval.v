(** eval of rulesets, rule by rule: the statements, and the criterion of the ruleset. *)
From Coq Require Import List ZArith QArith Bool String Ascii Permutation Lia.
From Coq Require Import List.
From Verif Require Import Base Num Arith CondModel CondSpec CondBase CondMore CondSet ThrModel ThrProofs MetModel MetSpec RuleModel RuleSpec RuleProofs RuleFit RuleEval RuleValues RuleMisc.
From Verif Require Import PredModel PredSpec PredReg PredStack PredMisc SetModel SetSpec SetBase SetSort SetAct SetAdd SetEq SetMisc FitModel FitSpec FitDrop FitMain.
Import ListNotations.
Open Scope string_scope.
Open Scope list_scope.
Open Scope Z_scope.

Lemma eval_same_rules G y xs keep_new w force kw s dropped s' :
  unordered (g_hash G) -> collision_free (g_hash G) -> g_stacked G = false -> g_shared G = false -> evaluates_something s xs kw ->
  (forall r, In r (s_rules s) -> regular r) ->
  set_eval G y xs keep_new w force kw s = (Ok dropped, s') ->
  exists evaluated new, (new = true <-> replaces keep_new s) /\
    Forall2 (fun r r' => RuleModel.eval (g_env G) y xs new force kw r = (Ok tt, r')) (s_rules s) evaluated /\
    chosen is_bad evaluated dropped /\
    chosen (fun r => forall q, In q dropped -> ~ same_rule q r) evaluated (s_rules s').
Proof.
  intros U F St Sh Es R H. destruct (eval_settled _ _ _ _ _ _ _ _ _ _ U F St Sh Es R H) as (evaluated & n & s2 & s3 & new & Nw & A & B & _ & -> & S & C).
  exists evaluated, new. split; auto. split; auto. split; auto.
  apply criterion_changes in C as (C & _); auto. rewrite C. exact (se_kept _ _ _ _ _ S).
Qed.

Lemma eval_drops G y xs keep_new w force kw s dropped s' :
  unordered (g_hash G) -> collision_free (g_hash G) -> g_stacked G = false -> g_shared G = false -> evaluates_something s xs kw ->
  (forall r, In r (s_rules s) -> regular r) -> all_different (s_rules s) ->
  set_eval G y xs keep_new w force kw s = (Ok dropped, s') ->
  exists evaluated new, (new = true <-> replaces keep_new s) /\
    Forall2 (fun r r' => RuleModel.eval (g_env G) y xs new force kw r = (Ok tt, r')) (s_rules s) evaluated /\
    chosen is_bad evaluated dropped /\ chosen is_good evaluated (s_rules s').
Proof.
  intros U F St Sh Es R D H. destruct (eval_same_rules _ _ _ _ _ _ _ _ _ _ U F St Sh Es R H) as (evaluated & new & Nw & A & B & C).
  exists evaluated, new. split; auto. split; auto. split; auto.
  assert (S : Forall2 still (s_rules s) evaluated) by (eapply forall2_weaken; [|exact A]; intros a b; apply still_eval).
  eapply chosen_iff; [|exact C]. intros r I.
  apply (good_kept (g_hash G) evaluated dropped U F (forall2_regular _ _ S R) (different_still _ _ S D) B r I).
Qed.

Lemma in_step_fields s s' : s_rules s' = s_rules s -> s_act s' = s_act s -> in_step s -> in_step s'.
Proof. intros R A. unfold in_step, set_vector. rewrite R, A. auto. Qed.

Lemma eval_rest G y ys xs keep_new w force kw s dropped s' :
  unordered (g_hash G) -> collision_free (g_hash G) -> g_stacked G = false -> g_shared G = false -> evaluates_something s xs kw ->
  (forall r, In r (s_rules s) -> regular r) -> is_target y ys ->
  set_eval G y xs keep_new w force kw s = (Ok dropped, s') ->
  s_test s' = integer (Z.of_nat (List.length ys)) /\ s_train s' = s_train s /\
  s_type s' = s_type s /\ s_stack s' = s_stack s /\ s_coverage s' = s_coverage s /\
  (forall f, In f (s_names s) -> In f (s_names s')) /\
  (dropped = [] -> s_names s' = s_names s /\ s_idx s' = s_idx s) /\
  ((xs <> None /\ replaces keep_new s) \/ (dropped = [] /\ in_step s) -> in_step s').
Proof.
  intros U F St Sh Es R Y H. destruct (eval_settled _ _ _ _ _ _ _ _ _ _ U F St Sh Es R H) as (evaluated & n & s2 & s3 & new & Nw & A & B & N & -> & S & C).
  rewrite (target_len_ok _ _ Y) in N. injection N as <-. destruct S as [S1 S2 (D1 & D2 & D3 & D4 & D5 & D6) S4 S5 (S6 & S7)].
  apply criterion_changes in C as (C & Act); auto. rewrite C. clear C.
  cbn [s_rules s_act s_type s_stack s_coverage s_criterion s_train s_test s_names s_idx with_rules with_train with_test with_criterion with_activation] in *.
  do 6 (split; auto). split. { intros E. destruct (S4 E) as (_ & _ & X1 & X2 & _). auto. }
  intros K.
  assert (I2 : in_step s2).
  { destruct dropped as [|q dropped].
    - destruct (S4 eq_refl) as (E1 & E2 & _). destruct (no_activation s || (given xs && new)) eqn:O.
      + apply united_in_step. auto.
      + apply orb_false_iff in O as (O1 & O2). destruct K as [(K1 & K2)|(_ & K)].
        { apply Nw in K2. subst. destruct xs; [discriminate|congruence]. }
        eapply in_step_same; [|exact E2|exact K]. rewrite E1.
        eapply forall2_weaken; [|exact A]. intros a b. apply act_eval. apply andb_false_iff in O2 as [O2|O2]; [left; destruct xs; [discriminate|auto]|auto].
    - destruct S5 as (S5 & _); [discriminate|]. destruct K as [(K1 & K2)|(K & _)]; [|discriminate].
      apply Nw in K2. subst. replace (no_activation (cleared s) || (given xs && true)) with true in S5.
      + apply united_in_step. auto.
      + destruct xs; [|congruence]. symmetry. apply orb_true_r. }
  destruct Act as [Act|(Na & Act)].
  - eapply in_step_fields; [| |exact I2]; auto.
  - apply united_in_step. cbn [s_rules s_act with_rules with_train with_test with_criterion with_activation]. apply evaluate_self_united. auto.
Qed.

Lemma eval_nothing G y xs keep_new w force kw s :
  (s_type s = None -> set_eval G y xs keep_new w force kw s = (Err EValue, s)) /\
  (s_type s = Some KRule -> set_eval G y xs keep_new w force kw s = (Err EType, s)) /\
  (s_type s <> None -> s_type s <> Some KRule -> k_method kw = true -> set_eval G y xs keep_new w force kw s = (Err EIndex, s)) /\
  (learner s kw -> (exists t, xs = Some t /\ nrows t = 0%nat) \/ s_rules s = [] -> set_eval G y xs keep_new w force kw s = (Ok [], s)) /\
  (learner s kw -> xs = None -> (exists r, In r (s_rules s) /\ r_fitted r = false) -> set_eval G y xs keep_new w force kw s = (Err EValue, s)).
Proof.
  unfold set_eval. split; [|split; [|split; [|split]]].
  - intros T. unfold learns. rewrite T. auto.
  - intros T. unfold learns. rewrite T. auto.
  - intros T T' M. unfold learns. destruct (s_type s) as [[]|]; try congruence; rewrite M; auto.
  - intros L K. destruct (learns_ok _ _ L) as (k & Lk & _). rewrite Lk. cbn [use].
    destruct K as [(t & -> & Z)|E].
    + cbn. rewrite Z. auto.
    + destruct (no_rows xs); auto. rewrite E. auto.
  - intros L -> (r & I & N). destruct (learns_ok _ _ L) as (k & Lk & _). rewrite Lk. cbn [use no_rows].
    destruct (s_rules s) as [|r0 t0] eqn:Rs; [destruct I|]. rewrite <- Rs in *.
    replace (forallb r_fitted (s_rules s)) with false; auto. symmetry. destruct (forallb r_fitted (s_rules s)) eqn:X; auto.
    rewrite forallb_forall in X. rewrite X in N; auto.
Qed.

(** ** The criterion *)

Lemma evaluate_self_on t s a w : s_rules s <> [] -> (forall r v, In r (s_rules s) -> working r (Some t) v -> bits v) ->
  evaluate_self_activation (Some t) s = Ok (Some a) -> raw a = Ok w -> covers_on t (s_rules s) w.
Proof.
  intros Ne B H W. unfold evaluate_self_activation in H. destruct (s_rules s) as [|r0 t0] eqn:R; [congruence|]. rewrite <- R in *. clear R r0 t0.
  destruct (rseq _) as [acs|] eqn:E in H; [|discriminate]. cbn [rmap rbind] in H. apply rseq_map_ok in E.
  assert (G : Forall2 (fun r a => exists v, working r (Some t) v /\ raw a = Ok v) (s_rules s) acs).
  { eapply forall2_weaken; [|exact E]. cbn. intros r c X. unfold evaluate_activation in X. destruct (r_cond r) as [d|] eqn:Rc; [|discriminate].
    destruct (evaluate d t) as [v|] eqn:V; [|discriminate]. injection X as <-. exists v. split; [exists d; auto|]. auto. }
  clear E. assert (X : exists vs, Forall2 (fun r v => working r (Some t) v) (s_rules s) vs /\ rseq (map raw acs) = Ok vs).
  { clear - G. induction G as [|r c l m (v & V & C) G (vs & IH & E)]; [exists []; auto|]. exists (v :: vs). split; auto. cbn [map rseq]. rewrite C, E. auto. }
  destruct X as (vs & F & E). destruct (forall2_in _ _ _ F) as (F1 & F2).
  destruct vs as [|v vs]; [inversion F; congruence|].
  assert (M : (forall u, In u (v :: vs) -> List.length u = List.length v) -> w = map (or_column (v :: vs)) (seq 0 (List.length v)) -> covers_on t (s_rules s) w).
  { intros L ->. split; rewrite map_length, seq_length.
    - intros r u Rr U. destruct (F1 r Rr) as (u' & I & U'). assert (u = u') as -> by (eapply working_fun; eauto). auto.
    - intros i I. rewrite nth_map_seq by auto. unfold or_column. destruct (existsb _ _) eqn:X.
      + left. split; auto. apply existsb_exists in X as (u & V & K). destruct (F2 u V) as (r & Rr & Wu). exists r, u. split; auto. split; auto.
        apply negb_true_iff, Z.eqb_neq in K. destruct (bits_nth u i (B r u Rr Wu)); auto. congruence.
      + right. split; auto. intros r u Rr V. rewrite existsb_false in X. destruct (F1 r Rr) as (u' & I' & V').
        assert (u' = u) as -> by (eapply working_fun; eauto). specialize (X u I'). apply negb_false_iff, Z.eqb_eq in X. auto. }
  destruct acs as [|a1 [|a2 acs]].
  - discriminate.
  - cbn [map rseq] in E. destruct (raw a1) as [u|]; [|discriminate]. cbn in E. injection E as <- <-. cbn in H. injection H as <-. cbn in W. injection W as <-.
    inversion F as [|r0 v0 l0 m0 Wr F' Er Em]; subst. inversion F'; subst.
    split.
    + intros r v [<-|[]] V. f_equal. eapply working_fun; eauto.
    + intros i I. destruct (bits_nth u i) as [Z|Z]; [apply (B r0 u); auto; rewrite <- Er; left; auto|right|left]; (split; auto).
      * intros r v [<-|[]] V. replace v with u; auto. eapply working_fun; eauto.
      * exists r0, u. cbn. auto.
  - unfold multi_or in H. rewrite E in H. cbn [rbind] in H.
    destruct (forallb _ vs) eqn:L in H; [|discriminate]. cbn in H. injection H as <-. cbn in W. injection W as <-.
    apply M; auto. intros u [<-|U]; auto. rewrite forallb_forall in L. apply Nat.eqb_eq. auto.
Qed.

(** Where the criterion looks at the rules: on [xs], or on the activations they have. *)
Definition looks (new : bool) (xs : option table) : option table := if new then None else xs.

Lemma predict_fields G xs w s s' : s_rules s' = s_rules s -> s_type s' = s_type s -> s_stacked s' = s_stacked s ->
  fst (set_predict G xs w s') = fst (set_predict G xs w s).
Proof. intros R T K. unfold set_predict. rewrite R, T, K. destruct (predict_rules _ _ _ _ _ _ _ _). auto. Qed.

Lemma criterion_regression G y ys xs w kw s s' : g_shared G = false -> s_rules s <> [] -> s_type s = Some KRegression ->
  is_target y (map LNum ys) -> calc_criterion G y xs w kw s = (Ok tt, s') ->
  s' = with_criterion (s_criterion s') s /\
  ((exists p, fst (set_predict G xs w s) = Ok p /\ (p = Empty \/ p = Numbers [] \/ p = Outcomes []) /\ s_criterion s' = nan) \/
   (exists l m, fst (set_predict G xs w s) = Ok (Numbers l) /\ l <> [] /\
      calc_regression_criterion (VSeries l) ys (k_criterion kw) = Ok (MNum m) /\ s_criterion s' = number m)).
Proof.
  intros Sh Ne T Y H. unfold calc_criterion in H. destruct (s_rules s) as [|r t] eqn:R; [congruence|]. clear R. rewrite T in H.
  apply next_ok in H as (p & s1 & P & H). rewrite P. cbn [fst]. apply predict_set_rules in P as (_ & _ & _ & P). rewrite P in H by auto. clear P s1.
  destruct (is_nothing p) eqn:N.
  - injection H as <-. split; [destruct s; auto|]. left. exists p. split; auto. split; auto. destruct p as [[]|[]|]; auto; discriminate.
  - destruct p as [l|l|]; try discriminate.
    destruct (number_target_ok _ _ Y) as (z & Ez & Iz). rewrite Ez in H. cbn [rbind] in H.
    apply use_ok in H as (m & M & H). apply rbind_ok in M as (ys' & Eu & M). rewrite (unsqueezed_ok _ _ _ Iz Eu) in M. injection H as <-. split; [destruct s; auto|]. right. apply rbind_ok in M as (me & M1 & M2). apply the_metric_inv in M2. subst.
    exists l, m. split; auto. split; [destruct l; discriminate|]. auto.
Qed.

Lemma labels_inv l cs : labels_of l = Ok cs -> l = map Class cs.
Proof.
  unfold labels_of. intros H. apply rseq_map_ok in H. induction H as [|o c l m X F IH]; auto. cbn. destruct o; [|discriminate]. injection X as <-. f_equal. auto.
Qed.

Lemma criterion_classification G y xs w kw s s' : g_shared G = false -> s_rules s <> [] -> s_type s = Some KClassification ->
  calc_criterion G y xs w kw s = (Ok tt, s') ->
  s' = with_criterion (s_criterion s') (with_activation (s_act s') s) /\
  (xs <> None -> s_act s' = s_act s) /\ (in_step s -> in_step s') /\
  ((exists p, fst (set_predict G xs w s) = Ok p /\ (p = Empty \/ p = Numbers [] \/ p = Outcomes []) /\ s_criterion s' = nan) \/
   (exists l v, fst (set_predict G xs w s) = Ok (Outcomes (map Class l)) /\ l <> [] /\
      match xs with
      | None => set_vector s' = Ok (Some v)
      | Some t => (forall r v, In r (s_rules s) -> working r (Some t) v -> bits v) -> covers_on t (s_rules s) v
      end /\
      ((exists m, calc_classification_criterion (ActArray v) (List.length v) (QSeries l) y (k_criterion kw) = Ok (RNum m) /\ s_criterion s' = number m) \/
       (calc_classification_criterion (ActArray v) (List.length v) (QSeries l) y (k_criterion kw) = Ok REmpty /\ s_criterion s' = other)))).
Proof.
  intros Sh Ne T H. pose proof (criterion_changes _ _ _ _ _ _ _ Sh H) as (C1 & C2). split; auto.
  unfold calc_criterion in H. destruct (s_rules s) as [|r t] eqn:R; [congruence|]. rewrite <- R in *. clear R. rewrite T in H.
  assert (St : in_step s -> in_step s').
  { intros K. destruct C2 as [C2|(_ & C2)].
    - eapply in_step_fields; [| |exact K]; auto. rewrite C1. auto.
    - apply united_in_step. rewrite C1. cbn [s_rules s_act with_criterion with_activation]. apply evaluate_self_united. auto. }
  apply next_ok in H as (p & s1 & P & H). rewrite P. cbn [fst]. apply predict_set_rules in P as (_ & _ & _ & P). rewrite P in H by auto. clear P s1.
  destruct (is_nothing p) eqn:N.
  - injection H as <-. split; auto. split; auto. left. exists p. split; auto. split; auto. destruct p as [[]|[]|]; auto; discriminate.
  - destruct p as [l|l|]; try discriminate. apply next_ok in H as (o & s1 & A & H). apply use_ok in H as (m & M & H). injection H as <-.
    apply rbind_ok in M as (cs & L & M). apply labels_inv in L. subst l. apply rbind_ok in M as (ra & M1 & M2).
    assert (Q : exists v, o = Some v).
    { destruct o as [v|]; eauto. cbn in M1. discriminate. }
    destruct Q as (v & ->). unfold criterion_activation in A. cbn [s_act s_criterion with_criterion] in *. split; [|split; auto].
    { intros X. destruct xs as [z|]; [|congruence]. apply use_ok in A as (a & _ & A). injection A as _ <-. auto. }
    right. exists cs, v. split; auto. split; [destruct cs; discriminate|]. split.
    + destruct xs as [z|].
      * apply use_ok in A as (a & A1 & A). destruct a as [a|]; [|discriminate]. destruct (raw a) as [u|] eqn:U; [|discriminate]. injection A as -> <-.
        intros B. eapply evaluate_self_on; eauto.
      * apply chain_ok in A as (s2 & _ & A). injection A as A <-. auto.
    + destruct ra as [x| |]; cbn in M2; [|injection M2 as <-; right; auto|discriminate]. injection M2 as <-. left. eauto.
Qed.

(** Dropping rules; fit and eval of rulesets, rule by rule. *)
From Coq Require Import List ZArith QArith Bool String Ascii Permutation Lia.
From Coq Require Import List.
From Verif Require Import Base Num Arith CondModel CondSpec CondBase CondMore CondSet ThrModel ThrProofs MetModel MetSpec RuleModel RuleSpec RuleProofs RuleFit RuleEval RuleValues RuleMisc.
From Verif Require Import PredModel PredSpec PredReg PredStack PredMisc SetModel SetSpec SetBase SetSort SetAct SetAdd SetEq SetMisc FitModel FitSpec.
Import ListNotations.
Open Scope string_scope.
Open Scope list_scope.
Open Scope Z_scope.

(** ** What does not change in a rule *)

Definition still (r r' : rule) : Prop := r_kind r' = r_kind r /\ r_cond r' = r_cond r.

(** [act]: the activation does not change either. *)
Definition firm (act : bool) (r r' : rule) : Prop := still r r' /\ (act = true -> r_act r' = r_act r).

Section Firm.
Variable b : bool.

Lemma firm_refl r : firm b r r.
Proof. repeat split; auto. Qed.

Lemma firm_trans r1 r2 r3 : firm b r1 r2 -> firm b r2 r3 -> firm b r1 r3.
Proof. intros ((A & B) & X) ((C & D) & Y). split; [split; congruence|]. intros T. rewrite Y, X; auto. Qed.

Lemma firm_check E a r : firm b r (snd (check_attribute E a r)).
Proof.
  unfold check_attribute. destruct (class_thresholds _ _) as [th|]; [|apply firm_refl].
  destruct (judge E th a r) as [[]|]; repeat split; reflexivity.
Qed.

Lemma firm_check_all E r : firm b r (snd (check_all E r)).
Proof.
  unfold check_all. destruct (class_thresholds _ _) as [th|]; [|apply firm_refl].
  induction (dir r) as [|a t IH]; cbn [check_names]; [apply firm_refl|].
  destruct (judge E th a r) as [[]|]; auto; repeat split; reflexivity.
Qed.

Lemma firm_andthen r m f : firm b r (snd m) -> (forall r1, firm b r1 (snd (f r1))) -> firm b r (snd (andthen m f)).
Proof. destruct m as ([[]|] & r1); cbn; intros A B; auto. eapply firm_trans; eauto. Qed.

Lemma firm_step {A} (v : res A) f r : (forall a, firm b r (snd (f a r))) -> firm b r (snd (step v f r)).
Proof. destruct v; cbn; auto. intros. apply firm_refl. Qed.

Lemma firm_if act f r : (forall v, firm b r (snd (f v r))) -> firm b r (snd (if_activation act r f)).
Proof. intros K. unfold if_activation. destruct (raw_of act r); [apply firm_step; auto|apply firm_refl]. Qed.

Lemma firm_then E a r r' : firm b r r' -> firm b r (snd (check_attribute E a r')).
Proof. intros K. eapply firm_trans; [exact K|apply firm_check]. Qed.

Lemma firm_launch E a y act kw r : firm b r (snd (launch E a y act kw r)).
Proof.
  unfold launch, calc_mean, calc_std, calc_sign, calc_rule_zscore, calc_error, calc_rate, calc_classes, calc_train_set_size, calc_test_set_size.
  destruct (r_kind r); repeat match goal with |- context [if ?b then _ else _] => destruct b end;
    repeat match goal with
    | |- firm _ ?r ?r => apply firm_refl
    | |- firm _ _ (snd (if_activation _ _ _)) => apply firm_if; intro
    | |- firm _ _ (snd (step _ _ _)) => apply firm_step; intro
    | |- firm _ _ (snd (check_attribute _ _ _)) => apply firm_then; repeat split; reflexivity
    | |- firm _ _ (snd (andthen _ _)) => apply firm_andthen; [|intro; repeat split; reflexivity]
    | |- firm _ _ (snd (match ?x with _ => _ end)) => destruct x
    | |- firm _ _ (snd (_, _)) => repeat split; reflexivity
    end.
Qed.

Lemma firm_compute E attrs y act kw force : forall r, firm b r (snd (compute E attrs y act kw force r)).
Proof.
  induction attrs as [|a t IH]; intros r; cbn [compute]; [apply firm_refl|].
  destruct (str_eqb a "activation"); [apply firm_refl|].
  destruct (negb (r_good r) && negb force).
  - eapply firm_trans; [|apply IH]. repeat split; auto.
  - apply firm_andthen; [apply firm_launch|]. intros r1. apply firm_andthen; auto.
    destruct (r_good r1); [apply firm_check|apply firm_refl].
Qed.

Lemma firm_calc E xs r : b = false \/ xs = None -> firm b r (snd (calc_activation E xs r)).
Proof.
  intros X. split; [apply calc_rule|]. intros T. destruct X as [X| -> ]; [congruence|].
  cbn. destruct (r_act r) eqn:A; cbn; auto.
Qed.

Lemma firm_fit E y xs force kw r : b = false \/ xs = None -> firm b r (snd (RuleModel.fit E y xs force kw r)).
Proof.
  intros X. unfold RuleModel.fit. destruct (k_method kw); [apply firm_refl|]. destruct (r_fitted r && _); [apply firm_refl|].
  destruct (match xs with Some t => (nrows t =? 0)%nat | None => false end); [apply firm_refl|].
  apply firm_andthen; [apply firm_calc; auto|]. intros r1. apply firm_andthen; [apply firm_compute|]. intros r2.
  apply firm_andthen; [destruct (r_good r2); [apply firm_check_all|apply firm_refl]|]. intros r3.
  apply firm_andthen; [destruct (e_subattributes E); apply firm_refl|]. intros r4. repeat split; auto.
Qed.

Lemma firm_put_all names : forall r, firm b r (put_all names r).
Proof.
  induction names as [|a t IH]; intros r; [apply firm_refl|]. unfold put_all. cbn [fold_left]. fold (put_all t (put ("_" ++ a)%string nan r)).
  eapply firm_trans; [|apply IH]. repeat split; auto.
Qed.

Lemma firm_eval E y xs recompute force kw r : b = false \/ xs = None \/ recompute = false ->
  firm b r (snd (RuleModel.eval E y xs recompute force kw r)).
Proof.
  intros X. unfold RuleModel.eval. destruct (k_method kw); [apply firm_refl|].
  destruct (negb (r_good r) && negb force).
  { cbn [snd]. eapply firm_trans; [|apply firm_put_all]. repeat split; auto. }
  destruct (match xs with Some t => (nrows t =? 0)%nat | None => false end); [apply firm_refl|].
  apply firm_andthen. { destruct recompute; [apply firm_calc|apply firm_refl]. intuition discriminate. }
  intros r1.
  destruct (negb (activation_available r1)); [apply firm_refl|]. apply firm_step. intros act.
  apply firm_andthen; [apply firm_compute|]. intros r2.
  apply firm_andthen; [destruct (r_good r2); [apply firm_check_all|apply firm_refl]|]. intros r3. repeat split; auto.
Qed.
End Firm.

Lemma still_fit E y xs force kw r r' : RuleModel.fit E y xs force kw r = (Ok tt, r') -> still r r'.
Proof. intros F. change r' with (snd (Ok tt : res unit, r')). rewrite <- F. apply (firm_fit false). auto. Qed.

Lemma still_eval E y xs recompute force kw r r' : RuleModel.eval E y xs recompute force kw r = (Ok tt, r') -> still r r'.
Proof. intros F. change r' with (snd (Ok tt : res unit, r')). rewrite <- F. apply (firm_eval false). auto. Qed.

Lemma act_fit E y force kw r r' : RuleModel.fit E y None force kw r = (Ok tt, r') -> r_act r' = r_act r.
Proof. intros F. change r' with (snd (Ok tt : res unit, r')). rewrite <- F. apply (firm_fit true); auto. Qed.

Lemma act_eval E y xs recompute force kw r r' : xs = None \/ recompute = false ->
  RuleModel.eval E y xs recompute force kw r = (Ok tt, r') -> r_act r' = r_act r.
Proof. intros X F. change r' with (snd (Ok tt : res unit, r')). rewrite <- F. apply (firm_eval true); auto. Qed.

(** ** The rules to keep *)

Lemma regular_still r r' : still r r' -> regular r -> regular r'.
Proof. intros (_ & C) (c & fs & A & B). exists c, fs. rewrite C. auto. Qed.

Lemma same_rule_still a b a' b' : still a a' -> still b b' -> same_rule a b <-> same_rule a' b'.
Proof.
  intros (_ & A) (_ & B). unfold same_rule. rewrite A, B. tauto.
Qed.

Lemma rule_eq_same H r q : unordered H -> collision_free H -> regular r -> regular q ->
  exists b, rule_eq H r q = Ok b /\ (b = true <-> same_rule r q).
Proof.
  intros U F (c & fs & C & Cf & P) (d & gs & D & Dg & Q).
  assert (K : exists b, rule_eq H r q = Ok b).
  { unfold rule_eq, ceq, hash. rewrite C, D, (to_hash_lists H c fs), (to_hash_lists H d gs) by (apply Cf || apply Dg). cbn. eauto. }
  destruct K as (b & K). exists b. split; auto. split.
  - intros ->. unfold rule_eq in K. rewrite C, D in K. exists c, d, fs, gs. do 4 (split; auto). eapply equal_converse; eauto.
  - intros (c' & d' & fs' & gs' & C' & D' & Cf' & Dg' & S).
    destruct (equal_rules H r q c' d' fs' gs' U C' D' Cf' Dg' S) as (X & _). congruence.
Qed.

Lemma among_ok H i r drop : unordered H -> collision_free H -> regular r -> (forall j q, In (j, q) drop -> regular q) ->
  exists b, among H i r drop = Ok b /\ (b = true <-> In i (map fst drop) \/ exists j q, In (j, q) drop /\ same_rule q r).
Proof.
  intros U F R. induction drop as [|(j, q) t IH]; intros Q; cbn [among].
  - exists false. split; auto. split; [discriminate|]. intros [[]|(j & q & [] & _)].
  - destruct (i =? j)%nat eqn:X.
    { apply Nat.eqb_eq in X. subst j. exists true. split; auto. cbn. tauto. }
    apply Nat.eqb_neq in X. destruct (rule_eq_same H q r U F) as (b & B & S); auto.
    { apply (Q j). left; auto. }
    rewrite B. cbn [rbind]. destruct b.
    { exists true. split; auto. split; auto. intros _. right. exists j, q. split; [left; auto|]. apply S. auto. }
    destruct IH as (b & B' & S'). { intros k p I. apply (Q k). right; auto. }
    exists b. split; auto. rewrite S'. split.
    + intros [K|(k & p & I & K)]; [left; right; auto|right; exists k, p; split; [right; auto|auto]].
    + intros [[K|K]|(k & p & [I|I] & K)]; [destruct X; auto|auto| |eauto 6].
      injection I as <- <-. exfalso. apply S in K. discriminate.
Qed.

Lemma chosen_map {A B} (f : A -> B) (P : B -> Prop) l m : chosen (fun x => P (f x)) l m -> chosen P (map f l) (map f m).
Proof. induction 1; cbn; constructor; auto. Qed.

Lemma chosen_filter {A} (f : A -> bool) (P : A -> Prop) l : (forall x, In x l -> f x = true <-> P x) -> chosen P l (filter f l).
Proof.
  induction l as [|x l IH]; intros K; cbn; [constructor|].
  assert (Kx := K x (or_introl eq_refl)). assert (C : chosen P l (filter f l)) by (apply IH; intros y I; apply K; right; auto).
  destruct (f x); constructor; auto; [apply Kx; auto|]. intros X. apply Kx in X. discriminate.
Qed.

Lemma chosen_iff {A} (P Q : A -> Prop) l m : (forall x, In x l -> P x <-> Q x) -> chosen P l m -> chosen Q l m.
Proof.
  intros K C. induction C as [|x l m Px C IH|x l m Px C IH].
  - constructor.
  - constructor; [apply K; [left; auto|auto]|apply IH; intros y I; apply K; right; auto].
  - apply ch_no; [intros X; apply Px, K; [left; auto|auto]|apply IH; intros y I; apply K; right; auto].
Qed.

Lemma numbered_snd {A} (l : list A) : map snd (numbered l) = l.
Proof.
  unfold numbered. generalize 0%nat. induction l as [|x l IH]; intros n; cbn; [auto|f_equal; auto].
Qed.

Lemma numbered_nth {A} (l : list A) i x : In (i, x) (numbered l) <-> nth_error l i = Some x.
Proof.
  unfold numbered.
  assert (G : forall n, In (i, x) (combine (seq n (List.length l)) l) <-> (n <= i)%nat /\ nth_error l (i - n) = Some x).
  { induction l as [|y l IH]; intros n; cbn.
    - split; [tauto|]. intros (_ & K). destruct (i - n)%nat; discriminate.
    - rewrite IH. split.
      + intros [E|(L & K)].
        * injection E as <- <-. split; [lia|]. rewrite Nat.sub_diag. auto.
        * split; [lia|]. replace (i - n)%nat with (S (i - S n)) by lia. auto.
      + intros (L & K). destruct (Nat.eq_dec n i) as [->|Ne].
        * rewrite Nat.sub_diag in K. cbn in K. left. congruence.
        * right. split; [lia|]. replace (i - n)%nat with (S (i - S n)) in K by lia. auto. }
  rewrite G, Nat.sub_0_r. split; [tauto|]. intros K. split; [lia|auto].
Qed.

(** A rule is kept if it is not dropped and is not the same as a dropped one. *)
Lemma keep_ok H rules drop : unordered H -> collision_free H -> (forall r, In r rules -> regular r) ->
  (forall j q, In (j, q) drop -> nth_error rules j = Some q) ->
  exists l, keep H rules drop = Ok l /\ chosen (fun r => forall q, In q (map snd drop) -> ~ same_rule q r) rules l.
Proof.
  intros U F R D.
  set (P := fun p : nat * rule => forall q, In q (map snd drop) -> ~ same_rule q (snd p)).
  assert (Q : forall j q, In (j, q) drop -> regular q). { intros j q I. apply R. eapply nth_error_In. eauto. }
  assert (X : forall ps, (forall p, In p ps -> In p (numbered rules)) ->
    exists l, rseq (map (fun p => rmap (fun b => (b, snd p)) (among H (fst p) (snd p) drop)) ps) = Ok l /\
      chosen P ps (filter (fun p => negb (match among H (fst p) (snd p) drop with Ok b => b | Err _ => false end)) ps) /\
      map snd (filter (fun p => negb (fst p)) l) = map snd (filter (fun p => negb (match among H (fst p) (snd p) drop with Ok b => b | Err _ => false end)) ps)).
  { induction ps as [|(i, r) ps IH]; intros S.
    - exists []. split; auto. split; auto. constructor.
    - destruct IH as (l & L & C & M). { intros p I. apply S. right; auto. }
      assert (I : nth_error rules i = Some r) by (apply numbered_nth, S; left; auto).
      destruct (among_ok H i r drop U F) as (b & B & K); auto. { apply R. eapply nth_error_In; eauto. }
      exists ((b, r) :: l). cbn [map rseq fst snd filter]. rewrite B. cbn [rmap rbind]. rewrite L. cbn [rbind rmap].
      split; auto. destruct b; cbn [negb map snd].
      + split; auto. apply ch_no; auto. unfold P. cbn [snd]. intros N.
        destruct (proj1 K eq_refl) as [J|(j & q & J & Z)].
        * apply in_map_iff in J as ((j & q) & <- & J). cbn [fst] in *. pose proof (D j q J) as E. assert (q = r) as -> by congruence.
          apply (N r); [apply in_map_iff; exists (j, r); auto|]. apply (same_refl H U F). eapply R, nth_error_In; eauto.
        * apply (N q); auto. apply in_map_iff. exists (j, q). auto.
      + split; [|f_equal; auto]. apply ch_yes; auto. intros q J Z. apply in_map_iff in J as ((j & q') & <- & J). cbn [snd] in *.
        assert (false = true) by (apply K; right; eauto). discriminate. }
  destruct (X (numbered rules)) as (l & L & C & M); auto.
  unfold keep. rewrite L. cbn [rmap]. eexists. split; [reflexivity|]. rewrite M.
  rewrite <- (numbered_snd rules) at 1. apply chosen_map with (P := fun r => forall q, In q (map snd drop) -> ~ same_rule q r). exact C.
Qed.

(** ** The new ruleset *)

Lemma united_in_step s : united (s_rules s) (s_act s) -> in_step s.
Proof.
  intros U P. specialize (U P). destruct (s_rules s) as [|r t].
  - unfold set_vector. destruct U as [->|(a & -> & V)]; auto. unfold alen. rewrite V. auto.
  - destruct U as (a & A & Hr & C & Ne & B & K). exists (v_bits a). split; auto.
    apply (set_available_vector s a A Hr Ne).
Qed.

Record dropped_from (s : ruleset) (kept : list rule) (s' : ruleset) : Prop := mkDropped {
  dr_rules : s_rules s' = kept;
  dr_type : s_type s' = s_type s;
  dr_act : s_act s' = s_act (cleared s);
  dr_stacked : s_stacked s' = None;
  dr_names : forall f, In f (s_names s) -> In f (s_names s');
  dr_rest : s_coverage s' = s_coverage s /\ s_criterion s' = s_criterion s /\ s_train s' = s_train s /\
            s_test s' = s_test s /\ s_stack s' = s_stack s /\ (s_compute s = true -> s_compute s' = true) }.

Lemma append_names G l : forall s s', append_all G (map ERule l) s = (Ok tt, s') ->
  (forall f, In f (s_names s) -> In f (s_names s')) /\ (forall f, In f (s_names s') -> In f (s_names s) \/ feature_name l f).
Proof.
  induction l as [|r l IH]; intros s s' H; cbn [map append_all] in H.
  - injection H as <-. auto.
  - apply chain_ok in H as (s1 & H1 & H). destruct (IH _ _ H) as (N1 & N2). apply append_false in H1 as (s2 & H1 & ->).
    apply add_rule_ok in H1. destruct (ad_feat _ _ _ _ H1) as (c & i & n & C & Ci & Cn & _ & E). cbn [s_names with_stack with_compute] in *.
    rewrite E in N1, N2. setoid_rewrite (set_of_In _ str_eqb_iff) in N1. setoid_rewrite (set_of_In _ str_eqb_iff) in N2.
    setoid_rewrite in_app_iff in N1. setoid_rewrite in_app_iff in N2. split; [auto|].
    intros f K. destruct (N2 f K) as [[J|J]|J]; auto.
    + right. exists r, c, n. cbn; auto.
    + right. destruct J as (r' & c' & n' & J1 & J2). exists r', c', n'. cbn; tauto.
Qed.

Lemma drop_rules_ok G drop s s' k : unordered (g_hash G) -> collision_free (g_hash G) -> (forall r, In r (s_rules s) -> regular r) ->
  (forall j q, In (j, q) drop -> nth_error (s_rules s) j = Some q) -> s_type s = Some k ->
  drop_rules G drop s = (Ok tt, s') ->
  exists kept, chosen (fun r => forall q, In q (map snd drop) -> ~ same_rule q r) (s_rules s) kept /\ dropped_from s kept s' /\
    (forall f, In f (s_names s') -> In f (s_names s) \/ feature_name kept f).
Proof.
  intros U F R D T H. destruct (keep_ok _ _ drop U F R D) as (l & L & C). exists l. split; auto.
  unfold drop_rules, rebuild in H. apply use_ok in H as (l' & L' & H). assert (l' = l) as -> by congruence. clear L'.
  destruct (append_names _ _ _ _ H) as (N1 & N2).
  apply append_all_extends in H as (H & _). rewrite the_rules_map in H. destruct H as [E1 E2 _ _ _ E3 E4 (B1 & B2 & B3 & B4 & B5 & B6)].
  assert (X : forall A (f : ruleset -> A), (forall a s, f (with_activation a s) = f s) -> f (cleared (with_rules [] s)) = f (with_rules [] s)).
  { intros A f K. unfold cleared. cbn [s_act with_rules]. destruct (s_act s); auto. }
  unfold del_stacked_activations in *. cbn [s_rules s_type s_act s_stacked s_names s_coverage s_criterion s_train s_test s_stack s_compute with_stacked] in *.
  rewrite ?(X _ s_rules), ?(X _ s_type), ?(X _ s_names), ?(X _ s_coverage), ?(X _ s_criterion), ?(X _ s_train), ?(X _ s_test),
    ?(X _ s_stack), ?(X _ s_compute) in * by reflexivity.
  cbn [s_rules s_type s_act s_stacked s_names s_coverage s_criterion s_train s_test s_stack s_compute with_rules app] in *.
  split; auto. constructor; auto.
  - destruct l as [|r l]; [auto|]. destruct E2 as (E2 & _). rewrite E2. unfold type_after. cbn [s_type with_stacked].
    rewrite (X _ s_type) by reflexivity. cbn [s_type with_rules]. rewrite T. auto.
  - rewrite E3. unfold cleared. cbn [s_act with_rules]. destruct (s_act s); auto.
  - repeat (split; auto).
Qed.

(** What a computation of the activations changes *)
Record refreshed (s s' : ruleset) : Prop := mkRefreshed {
  rf_rules : s_rules s' = s_rules s;
  rf_type : s_type s' = s_type s;
  rf_names : s_names s' = s_names s /\ s_idx s' = s_idx s;
  rf_rest : s_coverage s' = s_coverage s /\ s_criterion s' = s_criterion s /\ s_train s' = s_train s /\
            s_test s' = s_test s /\ s_stack s' = s_stack s /\ s_compute s' = s_compute s }.

Lemma refresh_ok G (b : bool) c s s' : refresh G b c s = (Ok tt, s') ->
  refreshed s s' /\ (b = true -> united (s_rules s') (s_act s')) /\ (b = false -> s_act s' = s_act s) /\
  (s_stack s = false -> s_stacked s' = s_stacked s).
Proof.
  unfold refresh. intros H. apply chain_ok in H as (s1 & H1 & H2).
  assert (X : refreshed s s1 /\ (b = true -> united (s_rules s1) (s_act s1)) /\ (b = false -> s_act s1 = s_act s) /\ s_stacked s1 = s_stacked s).
  { destruct b.
    - apply use_ok in H1 as (o & O & E). injection E as <-. split; [constructor; cbn; repeat split; auto|].
      cbn [s_rules s_act s_stacked with_activation]. split; [|split; [discriminate|auto]]. intros _. apply (evaluate_self_united (with_activation None s)). auto.
    - injection H1 as <-. split; [constructor; repeat split; auto|]. split; [discriminate|auto]. }
  destruct X as ([R T (N1 & N2) (B1 & B2 & B3 & B4 & B5 & B6)] & X1 & X2 & X3).
  destruct (s_stack s1 && c s1) eqn:K.
  - apply use_ok in H2 as (f & _ & E). injection E as <-. split; [constructor; cbn; repeat split; auto|].
    cbn [s_rules s_act s_stacked with_stacked]. split; [exact X1|]. split; [exact X2|]. intros St. rewrite B5, St in K. discriminate.
  - injection H2 as <-. split; [constructor; repeat split; auto|]. split; [exact X1|]. split; [exact X2|auto].
Qed.

(** ** fit, rule by rule *)

Lemma numbers_bad rules : numbers_rules rules (bad_numbers rules) = filter (fun p => negb (r_good (snd p))) (numbered rules).
Proof.
  unfold numbers_rules, bad_numbers.
  assert (X : forall l, (forall p, In p l -> In p (numbered rules)) ->
    flat_map (fun i => match nth_error rules i with Some r => [(i, r)] | None => [] end) (map fst l) = l).
  { induction l as [|(i, r) l IH]; intros S; auto. cbn [map flat_map fst]. rewrite IH by (intros p I; apply S; right; auto).
    rewrite (proj1 (numbered_nth rules i r) (S _ (or_introl eq_refl))). auto. }
  apply X. intros p I. apply filter_In in I. tauto.
Qed.

Lemma bad_chosen rules : chosen is_bad rules (map snd (numbers_rules rules (bad_numbers rules))).
Proof.
  rewrite numbers_bad. rewrite <- (numbered_snd rules) at 1. apply chosen_map with (P := is_bad). apply chosen_filter.
  intros (i, r) _. cbn [snd]. rewrite is_bad_spec. destruct (r_good r); cbn; split; congruence.
Qed.

Lemma bad_from rules j q : In (j, q) (numbers_rules rules (bad_numbers rules)) -> nth_error rules j = Some q.
Proof. rewrite numbers_bad. intros I. apply filter_In in I as (I & _). apply numbered_nth. auto. Qed.

Lemma learns_ok s kw : learner s kw -> exists k, learns s kw = Ok k /\ s_type s = Some k /\ k <> KRule.
Proof. intros ([T|T] & M); unfold learns; rewrite T, M; eexists; (split; [reflexivity|]); split; congruence. Qed.

Lemma rows_given xs : has_rows xs -> no_rows xs = false.
Proof. destruct xs as [t|]; cbn; auto. intros N. apply Nat.eqb_neq. auto. Qed.

Lemma chosen_In {A} (P : A -> Prop) l m : chosen P l m -> forall x, In x m <-> In x l /\ P x.
Proof.
  induction 1 as [|x l m Px C IH|x l m Px C IH]; intros y; cbn [In].
  - tauto.
  - rewrite IH. split; [intros [->|]; tauto|tauto].
  - rewrite IH. split; [tauto|]. intros ([->|I] & Py); tauto.
Qed.

Lemma chosen_nil {A} (P : A -> Prop) l : (forall x, In x l -> ~ P x) -> forall m, chosen P l m -> m = [].
Proof. intros K m C. destruct m as [|x m]; auto. exfalso. destruct (proj1 (chosen_In _ _ _ C x) (or_introl eq_refl)). eapply K; eauto. Qed.

Lemma chosen_all {A} (P : A -> Prop) l : (forall x, In x l -> P x) -> chosen P l l.
Proof. induction l; intros K; constructor; [apply K; left; auto|]. apply IHl. intros x I. apply K. right; auto. Qed.

(** What fit and eval do once the rules are computed; the activation is computed
    again when [a0], if no rule is dropped, or [a1], if one is. *)
Record settled (s : ruleset) (dropped : list rule) (a0 a1 : bool) (s' : ruleset) : Prop := mkSettled {
  se_kept : chosen (fun r => forall q, In q dropped -> ~ same_rule q r) (s_rules s) (s_rules s');
  se_type : s_type s' = s_type s;
  se_rest : s_coverage s' = s_coverage s /\ s_criterion s' = s_criterion s /\ s_train s' = s_train s /\
            s_test s' = s_test s /\ s_stack s' = s_stack s /\ (s_compute s = true -> s_compute s' = true);
  se_none : dropped = [] -> s_rules s' = s_rules s /\ (if a0 then united (s_rules s') (s_act s') else s_act s' = s_act s) /\
            s_names s' = s_names s /\ s_idx s' = s_idx s /\ (s_stack s = false -> s_stacked s' = s_stacked s);
  se_some : dropped <> [] -> (if a1 then united (s_rules s') (s_act s') else s_act s' = s_act (cleared s)) /\
            (s_stack s = false -> s_stacked s' = None);
  se_names : (forall f, In f (s_names s) -> In f (s_names s')) /\
             (forall f, In f (s_names s') -> In f (s_names s) \/ feature_name (s_rules s') f) }.

Lemma settle_ok G drop (a1 : option activation -> bool) c1 s s' k (m0 : res unit * ruleset) (a0 : bool) c0 :
  unordered (g_hash G) -> collision_free (g_hash G) -> (forall r, In r (s_rules s) -> regular r) ->
  (forall j q, In (j, q) drop -> nth_error (s_rules s) j = Some q) -> s_type s = Some k ->
  m0 = refresh G a0 c0 s ->
  match drop with
  | [] => m0
  | _ => chain (drop_rules G drop s) (fun s => refresh G (a1 (s_act s)) c1 s)
  end = (Ok tt, s') ->
  settled s (map snd drop) a0 (a1 (s_act (cleared s))) s'.
Proof.
  intros U F R D T M H. destruct drop as [|p d].
  - rewrite M in H. clear M. apply refresh_ok in H as ([E1 E2 (E3 & E4) (B1 & B2 & B3 & B4 & B5 & B6)] & U1 & U2 & U3). constructor; auto.
    + rewrite E1. apply chosen_all. intros r _ q [].
    + repeat split; auto. congruence.
    + intros _. split; auto. split; [|auto]. destruct a0; auto.
    + intros N. destruct N; auto.
    + rewrite E3. auto.
  - apply chain_ok in H as (s2 & H1 & H2).
    apply drop_rules_ok with (k := k) in H1 as (kept & C & [R1 R2 R3 R4 R5 (D1 & D2 & D3 & D4 & D5 & D6)] & N2); auto.
    apply refresh_ok in H2 as ([E1 E2 (E3 & E4) (B1 & B2 & B3 & B4 & B5 & B6)] & U1 & U2 & U3). constructor; auto.
    + rewrite E1, R1. auto.
    + congruence.
    + repeat split; try congruence. intros K. rewrite B6. auto.
    + intros N. discriminate.
    + intros _. split; [|intros St; rewrite U3; congruence]. rewrite <- R3. destruct (a1 (s_act s2)); auto.
    + rewrite E3, E1, R1. auto.
Qed.

Lemma fitted_forall f s s' : for_each f s = (Ok tt, s') ->
  s' = with_rules (s_rules s') s /\ Forall2 (fun r r' => f r = (Ok tt, r')) (s_rules s) (s_rules s').
Proof.
  unfold for_each. intros H. destruct (each f (s_rules s)) as (o, l) eqn:E. injection H as -> <-. split; auto. apply each_ok. auto.
Qed.

Lemma forall2_regular l m : Forall2 still l m -> (forall r, In r l -> regular r) -> forall r, In r m -> regular r.
Proof. intros F R r I. destruct (forall2_in _ _ _ F) as (_ & K). destruct (K r I) as (q & J & S). eapply regular_still; eauto. Qed.

Lemma next_ok {A B} (m : res A * ruleset) (f : A -> ruleset -> res B * ruleset) x s' :
  next m f = (Ok x, s') -> exists a s, m = (Ok a, s) /\ f a s = (Ok x, s').
Proof. destruct m as ([a|e] & s); cbn; [eauto|discriminate]. Qed.

(** What an unstacked fit does *)
Lemma fit_settled G y series xs force kw s dropped s' :
  unordered (g_hash G) -> collision_free (g_hash G) -> g_stacked G = false -> fits_something s xs kw ->
  (forall r, In r (s_rules s) -> regular r) ->
  set_fit G y series xs force kw s = (Ok dropped, s') ->
  exists fitted n s2, Forall2 (fun r r' => RuleModel.fit (g_env G) y xs force kw r = (Ok tt, r')) (s_rules s) fitted /\
    chosen is_bad fitted dropped /\ target_len y = Ok n /\ s' = with_train (integer n) s2 /\
    settled (with_rules fitted s) dropped (no_activation s || given xs) true s2.
Proof.
  intros U F St (L & Ne & Rows & Some_) R H. destruct (learns_ok _ _ L) as (k & Lk & T & _).
  unfold set_fit in H. rewrite Lk in H. cbn [use] in H. rewrite (rows_given _ Rows) in H.
  destruct (s_rules s) as [|r0 t0] eqn:Rs; [congruence|]. rewrite <- Rs in *.
  assert (B : forallb r_fitted (s_rules s) && negb (given xs) = false).
  { destruct xs as [t|]; [apply andb_false_r|]. cbn. rewrite andb_true_r. destruct (forallb r_fitted (s_rules s)) eqn:B; auto.
    rewrite forallb_forall in B. destruct (Some_ eq_refl) as (r & I & J). rewrite B in J; auto. }
  rewrite B in H. clear B. apply next_ok in H as (drop & s1 & H1 & H).
  unfold fit_rules in H1. rewrite St in *. apply chain_ok in H1 as (s1' & H1 & E). injection E as <- <-.
  apply fitted_forall in H1 as (E1 & H1). set (fitted := s_rules s1') in *.
  apply chain_ok in H as (s2 & H2 & H). apply use_ok in H as (n & N & H). injection H as <- <-.
  exists fitted, n, s2. split; auto. split; [apply bad_chosen|]. split; auto. split; auto.
  rewrite E1 in H2. cbn [s_rules with_rules] in H2.
  assert (R' : forall r, In r fitted -> regular r).
  { eapply forall2_regular; [|exact R]. eapply forall2_weaken; [|exact H1]. intros a b. apply still_fit. }
  eapply (settle_ok G _ (fun _ => true) (fun _ => true) (with_rules fitted s)); eauto.
  - apply bad_from.
Qed.

(** ** eval, rule by rule *)

Lemma predict_set_rules G xs w s p s' : set_predict G xs w s = (p, s') ->
  exists rules, s' = with_rules rules s /\ predict_rules (g_env G) (g_stacked G) (g_shared G) (s_type s) (s_rules s) (s_stacked s) xs w = (p, rules) /\
    (g_shared G = false -> s' = s).
Proof.
  unfold set_predict. destruct (predict_rules _ _ _ _ _ _ _ _) as (o, rules) eqn:P. intros H. injection H as <- <-.
  exists rules. split; auto. split; auto. intros Sh.
  pose proof (predict_keeps (g_env G) (g_stacked G) (g_shared G) (s_type s) (s_rules s) (s_stacked s) xs w (or_introl Sh)) as X.
  rewrite P in X. cbn in X. subst. destruct s; auto.
Qed.

(** The computation of the criterion changes the criterion, and the activation if there is none. *)
Lemma criterion_changes G y xs w kw s s' : g_shared G = false -> calc_criterion G y xs w kw s = (Ok tt, s') ->
  s' = with_criterion (s_criterion s') (with_activation (s_act s') s) /\
  (s_act s' = s_act s \/ (no_activation s = true /\ evaluate_self_activation None s = Ok (s_act s'))).
Proof.
  intros Sh H. unfold calc_criterion in H.
  assert (Same : s = with_criterion (s_criterion s) (with_activation (s_act s) s)) by (destruct s; auto).
  destruct (s_rules s) as [|r t] eqn:R; [injection H as <-; auto|]. clear R.
  destruct (s_type s) as [k|]; [|injection H as <-; auto].
  apply next_ok in H as (p & s1 & P & H). apply predict_set_rules in P as (_ & _ & _ & P). rewrite P in H by auto. clear P s1.
  destruct (is_nothing p).
  { injection H as <-. split; [destruct s; auto|left; destruct s; auto]. }
  destruct k, p as [l|l|]; try discriminate.
  - apply use_ok in H as (m & _ & H). injection H as <-. split; [destruct s; auto|left; destruct s; auto].
  - apply next_ok in H as (o & s1 & A & H). apply use_ok in H as (m & _ & H). injection H as <-. cbn [s_criterion s_act with_criterion].
    unfold criterion_activation in A. destruct xs as [t0|].
    + apply use_ok in A as (a & _ & A). injection A as _ <-. split; [destruct s; auto|left; destruct s; auto].
    + apply chain_ok in A as (s2 & A & B). injection B as _ <-. destruct (no_activation s) eqn:Na.
      * apply use_ok in A as (a & A & E). injection E as <-. split; [destruct s; auto|]. right. auto.
      * injection A as <-. split; [destruct s; auto|left; destruct s; auto].
Qed.

(** What an unstacked eval does *)
Lemma eval_settled G y xs keep_new w force kw s dropped s' :
  unordered (g_hash G) -> collision_free (g_hash G) -> g_stacked G = false -> g_shared G = false -> evaluates_something s xs kw ->
  (forall r, In r (s_rules s) -> regular r) ->
  set_eval G y xs keep_new w force kw s = (Ok dropped, s') ->
  exists evaluated n s2 s3 new, (new = true <-> replaces keep_new s) /\
    Forall2 (fun r r' => RuleModel.eval (g_env G) y xs new force kw r = (Ok tt, r')) (s_rules s) evaluated /\
    chosen is_bad evaluated dropped /\ target_len y = Ok n /\ s' = with_test (integer n) s3 /\
    settled (with_rules evaluated s) dropped (no_activation s || (given xs && new)) (no_activation (cleared s) || (given xs && new)) s2 /\
    calc_criterion G y (if new then None else xs) w kw s2 = (Ok tt, s3).
Proof.
  intros U F St Sh (L & Ne & Rows & All) R H. destruct (learns_ok _ _ L) as (k & Lk & T & _).
  unfold set_eval in H. rewrite Lk in H. cbn [use] in H. rewrite (rows_given _ Rows) in H.
  destruct (s_rules s) as [|r0 t0] eqn:Rs; [congruence|]. rewrite <- Rs in *.
  assert (B : negb (forallb r_fitted (s_rules s)) && negb (given xs) = false).
  { destruct xs as [t|]; [apply andb_false_r|]. cbn. rewrite andb_true_r. apply negb_false_iff. apply forallb_forall. auto. }
  rewrite B in H. clear B. set (new := keep_new || negb (forallb r_fitted (s_rules s))) in *.
  assert (Nw : new = true <-> replaces keep_new s).
  { unfold new, replaces. rewrite orb_true_iff, negb_true_iff. apply or_iff_compat_l. split.
    - intros K. clear - K. induction (s_rules s) as [|r t IH]; cbn in K; [discriminate|].
      destruct (r_fitted r) eqn:E; [destruct (IH K) as (q & I & J); exists q; cbn; auto|exists r; cbn; auto].
    - intros (r & I & J). destruct (forallb r_fitted (s_rules s)) eqn:K; auto. rewrite forallb_forall in K. rewrite K in J; auto. }
  apply next_ok in H as (drop & s1 & H1 & H).
  unfold eval_rules in H1. rewrite St in *. apply chain_ok in H1 as (s1' & H1 & E). injection E as <- <-.
  apply fitted_forall in H1 as (E1 & H1). set (evaluated := s_rules s1') in *.
  apply chain_ok in H as (s2 & H2 & H). apply chain_ok in H as (s3 & H3 & H). apply use_ok in H as (n & N & H). injection H as <- <-.
  exists evaluated, n, s2, s3, new. split; auto. split; auto. split; [apply bad_chosen|]. split; auto. split; auto. split; auto.
  rewrite E1 in H2. cbn [s_rules with_rules] in H2.
  assert (R' : forall r, In r evaluated -> regular r).
  { eapply forall2_regular; [|exact R]. eapply forall2_weaken; [|exact H1]. intros a b. apply still_eval. }
  change (no_activation (cleared s)) with (match s_act (cleared s) with None => true | Some a => alen a =? 0 end).
  replace (s_act (cleared s)) with (s_act (cleared (with_rules evaluated s))) by (unfold cleared; cbn; destruct (s_act s); auto).
  eapply (settle_ok G _ (fun o => match o with None => true | Some a => alen a =? 0 end || (given xs && new)) _ (with_rules evaluated s)); eauto.
  apply bad_from.
Qed.

(** Additions to a ruleset: failures, types and features. *)
From Coq Require Import List ZArith QArith Bool String Ascii Permutation Lia.
From Coq Require Import List.
From Verif Require Import Base Num CondModel CondSpec CondBase ThrModel ThrProofs MetModel MetSpec RuleModel RuleSpec RuleProofs RuleValues.
From Verif Require Import PredModel PredSpec PredReg PredStack SetModel SetSpec SetBase SetSort SetAct SetStack.
Import ListNotations.
Open Scope string_scope.
Open Scope list_scope.
Open Scope Z_scope.

(** ** Rejections *)

Lemma instance_dec r t : instance r t \/ ~ instance r t.
Proof. unfold instance. destruct t, (r_kind r); auto; right; intros [|]; discriminate. Qed.

Lemma isinstance_not r t : ~ instance r t -> isinstance (r_kind r) t = false.
Proof. intros N. destruct (isinstance (r_kind r) t) eqn:E; auto. apply isinstance_spec in E. congruence. Qed.

Lemma reject_rule G r s t : s_type s = Some t -> ~ instance r t ->
  add_rule G r s = (Err EType, s) /\ append G (ERule r) true s = (Err EType, s).
Proof.
  intros T N. assert (A : add_rule G r s = (Err EType, s)).
  { unfold add_rule. rewrite T, (isinstance_not r t N). auto. }
  split; auto. unfold append. rewrite A. auto.
Qed.

Lemma reject_other G e update s : (forall r, e <> ERule r) -> append G e update s = (Err EType, s).
Proof. destruct e; auto. intros H. congruence. Qed.

Lemma reject_set t s k k' : s_type s = Some k -> s_type t = Some k' -> k <> k' -> add_set t s = (Err EType, s).
Proof.
  intros T T' N. unfold add_set. rewrite T, T'. destruct (kind_eqb k k') eqn:E; auto. apply kind_eqb_spec in E. congruence.
Qed.

(** ** What changes, whatever happens *)

Lemma chain_any {A} (P : ruleset -> Prop) m (f : ruleset -> res A * ruleset) :
  P (snd m) -> (forall s, P s -> P (snd (f s))) -> P (snd (chain m f)).
Proof. destruct m as [[]]; cbn; auto. Qed.

Lemma use_any {A B} (P : ruleset -> Prop) (v : res A) (f : A -> ruleset -> res B * ruleset) s :
  P s -> (forall a, v = Ok a -> P (snd (f a s))) -> P (snd (use v f s)).
Proof. destruct v; cbn; auto. Qed.

(** The rules and the type do not change afterwards. *)
Definition keeps (rules : list rule) (t : option kind) (s : ruleset) : Prop := s_rules s = rules /\ s_type s = t.

Lemma features_keep ind nam rules t s : keeps rules t s -> keeps rules t (snd (add_features ind nam s)).
Proof.
  intros K. unfold add_features. apply chain_any.
  - apply use_any; auto.
  - intros s1 K1. apply use_any; auto.
Qed.

Lemma activation_keep av vec act rules t s : keeps rules t s -> keeps rules t (snd (update_activation av vec act s)).
Proof. intros K. unfold update_activation. destruct av; auto. apply use_any; auto. Qed.

Lemma stacked_rule_keep G r rules t s : keeps rules t s -> keeps rules t (snd (update_stacked_rule G r s)).
Proof. intros K. unfold update_stacked_rule. destruct (activation_available r); auto. apply use_any; auto. Qed.

Lemma stacked_set_keep u rules t s : keeps rules t s -> keeps rules t (snd (update_stacked_set u s)).
Proof.
  intros K. unfold update_stacked_set. destruct (set_available u); auto. destruct (s_stacked s); auto. destruct (s_stacked u); auto.
  apply use_any; auto.
Qed.

Lemma add_rule_any G r s :
  (exists t, s_type s = Some t /\ ~ instance r t /\ add_rule G r s = (Err EType, s)) \/
  (instance r (type_after s (r_kind r)) /\ keeps (s_rules s ++ [r]) (Some (type_after s (r_kind r))) (snd (add_rule G r s))).
Proof.
  assert (R : forall s1, keeps (s_rules s ++ [r]) (Some (type_after s (r_kind r))) (with_rules (s_rules s1 ++ [r]) s1) ->
    keeps (s_rules s ++ [r]) (Some (type_after s (r_kind r)))
      (snd (chain (add_features (rule_indexes r) (rule_names r) (with_rules (s_rules s1 ++ [r]) s1)) (fun s =>
            chain (if s_compute s then update_activation (activation_available r) (activation_vector r) (r_act r) s else done s) (fun s =>
            if s_stack s then update_stacked_rule G r s else done s))))).
  { intros s1 K. apply chain_any; [apply features_keep; auto|]. intros s2 K2. apply chain_any.
    - destruct (s_compute s2); [apply activation_keep|]; auto.
    - intros s3 K3. destruct (s_stack s3); [apply stacked_rule_keep|]; auto. }
  destruct (s_type s) as [t|] eqn:T.
  - destruct (instance_dec r t) as [I|N].
    + right. unfold type_after in *. rewrite T in *. split; auto. unfold add_rule. rewrite T. apply isinstance_spec in I. rewrite I.
      cbn [chain]. apply (R s). split; auto.
    + left. exists t. split; auto. split; auto. apply (reject_rule G r s t); auto.
  - right. unfold type_after in *. rewrite T in *. split; [right; auto|]. unfold add_rule. rewrite T. cbn [chain].
    apply (R (with_type (Some (r_kind r)) s)). split; auto.
Qed.

Lemma add_set_any u s :
  (exists t t', s_type s = Some t /\ s_type u = Some t' /\ t <> t' /\ add_set u s = (Err EType, s)) \/
  ((forall t t', s_type s = Some t -> s_type u = Some t' -> t = t') /\
   keeps (s_rules s ++ s_rules u) (match s_type s with Some t => Some t | None => s_type u end) (snd (add_set u s))).
Proof.
  assert (R : forall t s1, keeps (s_rules s ++ s_rules u) t (with_rules (s_rules s1 ++ s_rules u) s1) ->
    keeps (s_rules s ++ s_rules u) t
      (snd (chain (add_features (Ok (Some (s_idx u))) (Ok (Some (s_names u))) (with_rules (s_rules s1 ++ s_rules u) s1)) (fun s =>
            chain (if s_compute s then update_activation (set_available u) (set_vector u) (s_act u) s else done s) (fun s =>
            if s_stack s then update_stacked_set u s else done s))))).
  { intros t s1 K. apply chain_any; [apply features_keep; auto|]. intros s2 K2. apply chain_any.
    - destruct (s_compute s2); [apply activation_keep|]; auto.
    - intros s3 K3. destruct (s_stack s3); [apply stacked_set_keep|]; auto. }
  destruct (s_type s) as [t|] eqn:T, (s_type u) as [t'|] eqn:T'.
  - destruct (kind_eqb t t') eqn:E.
    + right. apply kind_eqb_spec in E. split; [congruence|]. unfold add_set. rewrite T, T'. destruct (kind_eqb t t') eqn:E2.
      * cbn [chain]. apply R. split; auto.
      * apply kind_eqb_spec in E. congruence.
    + left. exists t, t'. split; auto. split; auto.
      assert (N : t <> t') by (intros X; apply kind_eqb_spec in X; congruence). split; auto. apply (reject_set u s t t'); auto.
  - right. split; [congruence|]. unfold add_set. rewrite T, T'. cbn [chain]. apply R. split; auto.
  - right. split; [congruence|]. unfold add_set. rewrite T, T'. cbn [chain]. apply R. split; auto.
  - right. split; [congruence|]. unfold add_set. rewrite T, T'. cbn [chain]. apply R. split; auto.
Qed.

Lemma append_any G e update s :
  s_rules (snd (append G e update s)) = s_rules s /\ s_type (snd (append G e update s)) = s_type s \/
  exists r, e = ERule r /\ instance r (type_after s (r_kind r)) /\
    keeps (s_rules s ++ [r]) (Some (type_after s (r_kind r))) (snd (append G e update s)).
Proof.
  destruct e as [r| |]; [|left; auto|left; auto]. unfold append.
  set (s0 := if update then s else with_stack false (with_compute false s)).
  assert (S0 : s_rules s0 = s_rules s /\ s_type s0 = s_type s) by (unfold s0; destruct update; auto).
  destruct S0 as (E1 & E2). destruct (add_rule_any G r s0) as [(t & T & N & E)|(I & K)].
  - left. rewrite E. auto.
  - right. exists r. split; auto. unfold type_after in *. rewrite E1, E2 in *. split; auto.
    apply chain_any; auto.
Qed.

(** C42: nothing else than the rule is added to the rules, at their end. *)
Lemma append_rules G e update s :
  s_rules (snd (append G e update s)) = s_rules s \/
  exists r, e = ERule r /\ s_rules (snd (append G e update s)) = s_rules s ++ [r].
Proof.
  destruct (append_any G e update s) as [(E & _)|(r & -> & _ & E & _)]; auto. right. eauto.
Qed.

Lemma append_success G e update s s' : append G e update s = (Ok tt, s') -> exists r, e = ERule r /\ s_rules s' = s_rules s ++ [r] /\
  s_stack s' = s_stack s.
Proof.
  destruct e as [r| |]; try discriminate. intros H. exists r. split; auto. destruct update.
  - apply append_true in H as (s1 & H & ->). apply add_rule_ok in H. cbn. split; auto. apply (ad_rules _ _ _ _ H).
  - apply append_false in H as (s1 & H & ->). apply add_rule_ok in H. cbn. split; auto. apply (ad_rules _ _ _ _ H).
Qed.

(** What else happens when append raises *)
Lemma append_failure G r update s e s' : append G (ERule r) update s = (Err e, s') ->
  s_stack s' = (if update then s_stack s else false) /\ s_compute s' = (if update then s_compute s else false).
Proof.
  unfold append. set (s0 := if update then s else with_stack false (with_compute false s)). intros H.
  assert (S0 : s_stack s0 = (if update then s_stack s else false) /\ s_compute s0 = (if update then s_compute s else false))
    by (unfold s0; destruct update; auto).
  assert (A : forall s1, snd (add_rule G r s0) = s1 -> s_stack s1 = s_stack s0 /\ s_compute s1 = s_compute s0).
  { set (P := fun s => s_stack s = s_stack s0 /\ s_compute s = s_compute s0).
    assert (X : P (snd (add_rule G r s0))).
    { unfold add_rule. apply chain_any.
      - destruct (s_type s0); [destruct (isinstance _ _)|]; split; auto.
      - intros s1 P1. apply chain_any.
        + unfold add_features. apply chain_any; [apply use_any; auto|]. intros s2 P2. apply use_any; auto.
        + intros s2 P2. apply chain_any.
          * destruct (s_compute s2); auto. unfold update_activation. destruct (activation_available r); auto. apply use_any; auto.
          * intros s3 P3. destruct (s_stack s3); auto. unfold update_stacked_rule. destruct (activation_available r); auto. apply use_any; auto. }
    intros s1 <-. exact X. }
  destruct (add_rule G r s0) as [[[]|e'] s1] eqn:E; cbn in H; [discriminate|]. injection H as <- <-.
  destruct (A s1 eq_refl) as (A1 & A2). destruct S0. split; congruence.
Qed.

(** ** Types *)

Definition of_type (s : ruleset) : Prop :=
  match s_type s with
  | None => s_rules s = []
  | Some t => forall r, In r (s_rules s) -> instance r t
  end.

Lemma instance_kind r r' t : r_kind r = r_kind r' -> instance r t -> instance r' t.
Proof. unfold instance. intros E. rewrite E. auto. Qed.

Lemma new_set_type G l compute stacking s : new_set G l compute stacking = Ok s -> of_type s.
Proof.
  destruct l as [l|].
  - intros H. apply new_set_ok in H as (B & _). destruct B as [R _ T _ _ _ _ _ _]. unfold of_type.
    destruct (forall2_in _ _ _ R) as (_ & R2). destruct (the_rules l) as [|r t].
    + rewrite T. inv R. auto.
    + destruct T as (T & I). rewrite T. intros q Q. destruct (R2 q Q) as (q' & Q' & X).
      apply (instance_kind q'); auto. symmetry. apply X.
  - unfold new_set. cbn. intros H. destruct (g_check G); cbn in H; injection H as <-; reflexivity.
Qed.

Lemma calc_rule E xs r : r_kind (snd (calc_activation E xs r)) = r_kind r /\ r_cond (snd (calc_activation E xs r)) = r_cond r.
Proof.
  unfold calc_activation. destruct xs as [t|]; [|destruct (r_act r); auto]. destruct (nrows t =? 0)%nat; auto.
  destruct (evaluate_activation r t) as [a|]; auto. cbn [step]. unfold check_attribute.
  destruct (class_thresholds _ _); auto. destruct (judge _ _ _ _) as [[]|]; auto.
Qed.

Lemma each_keeps (f : rule -> res unit * rule) (P : rule -> rule -> Prop) : (forall r, P r r) -> (forall r, P r (snd (f r))) ->
  forall rules, Forall2 P rules (snd (each f rules)).
Proof.
  intros P0 P1. induction rules as [|r t IH]; cbn [each]; [constructor|]. pose proof (P1 r) as Q.
  destruct (f r) as [[[]|e] r']; cbn in Q |- *.
  - destruct (each f t) as (o, t'). cbn in *. constructor; auto.
  - constructor; auto. apply forall2_diag. auto.
Qed.

Definition same_kind_condition (r r' : rule) : Prop := r_kind r' = r_kind r /\ r_cond r' = r_cond r.

Lemma set_calc_any G xs s : Forall2 same_kind_condition (s_rules s) (s_rules (snd (set_calc_activation G xs s))) /\
  s_type (snd (set_calc_activation G xs s)) = s_type s /\ s_names (snd (set_calc_activation G xs s)) = s_names s /\
  s_idx (snd (set_calc_activation G xs s)) = s_idx s.
Proof.
  assert (D : Forall2 same_kind_condition (s_rules s) (s_rules s)) by (apply forall2_diag; split; auto).
  unfold set_calc_activation. destruct (s_rules s) as [|r0 t0] eqn:R; [cbn; rewrite R; auto|].
  destruct (nrows xs =? 0)%nat; [cbn; rewrite R; auto|].
  set (P := fun s' => Forall2 same_kind_condition (r0 :: t0) (s_rules s') /\ s_type s' = s_type s /\ s_names s' = s_names s /\ s_idx s' = s_idx s).
  change (P (snd (chain (for_each (calc_activation (g_env G) (Some xs)) s) (fun s =>
        chain (compute_self_activation None (with_activation None s)) (fun s =>
        if s_stack s then compute_stacked_activation G None (with_stacked None s) else done s))))).
  apply chain_any.
  - unfold for_each. pose proof (each_keeps (calc_activation (g_env G) (Some xs)) same_kind_condition (fun r => conj eq_refl eq_refl)
      (calc_rule (g_env G) (Some xs)) (s_rules s)) as X. rewrite R in X |- *. destruct (each _ _) as (o, l). cbn in X |- *.
    split; auto.
  - intros s1 P1. apply chain_any.
    + unfold compute_self_activation; apply use_any; auto.
    + intros s2 P2. destruct (s_stack s2); auto. unfold compute_stacked_activation; apply use_any; auto.
Qed.

Lemma of_type_same s rules s' : of_type s -> (forall r', In r' rules -> exists r, In r (s_rules s) /\ r_kind r' = r_kind r) ->
  (s_rules s = [] -> rules = []) -> s_rules s' = rules -> s_type s' = s_type s -> of_type s'.
Proof.
  unfold of_type. intros O F N R T. rewrite R, T. destruct (s_type s); auto. intros r' I. destruct (F r' I) as (r & K & E).
  apply (instance_kind r); auto.
Qed.

Lemma typed_of_type G s : typed G s -> of_type s.
Proof.
  induction 1 as [l compute stack s H|s e update M IH|s r M IH|s t M IH M' IH'|s r s' M IH H|s t s' M IH M' IH' H|s a b c s' M IH H
                 |s xs M IH|s c b M IH].
  - eapply new_set_type; eauto.
  - destruct (append_any G e update s) as [(E & F)|(r & -> & I & E & F)].
    + unfold of_type in *. rewrite E, F. auto.
    + unfold of_type in *. rewrite E, F. intros q Q. apply in_app_or in Q as [Q|[<-|[]]]; auto. unfold type_after.
      destruct (s_type s); [auto|]. rewrite IH in Q. destruct Q.
  - destruct (add_rule_any G r s) as [(t & T & N & E)|(I & E & F)]; [rewrite E; auto|].
    unfold of_type in *. rewrite E, F. intros q Q. apply in_app_or in Q as [Q|[<-|[]]]; auto. unfold type_after.
    destruct (s_type s); [auto|]. rewrite IH in Q. destruct Q.
  - destruct (add_set_any t s) as [(k & k' & _ & _ & _ & E)|(I & E & F)]; [rewrite E; auto|].
    unfold of_type in *. rewrite E, F. destruct (s_type s) as [k|], (s_type t) as [k'|].
    + assert (k = k') as <- by auto. intros q Q. apply in_app_or in Q as [Q|Q]; auto.
    + rewrite IH', app_nil_r. auto.
    + rewrite IH. auto.
    + rewrite IH, IH'. auto.
  - unfold plus_rule in H. eapply new_set_type; eauto.
  - unfold plus_set in H. destruct (rule_set _ _) as [l|]; [|discriminate]. cbn [rbind] in H. eapply new_set_type; eauto.
  - unfold getitem_slice in H. destruct (slice_range _ _ _ _); [|discriminate]. cbn [rbind] in H. destruct (rseq _) in H; [|discriminate]. cbn [rbind] in H.
    eapply new_set_type; eauto.
  - pose proof (set_calc_any G xs s) as (F & T & _). eapply of_type_same; [exact IH| |  |reflexivity|exact T].
    + intros r' I. destruct (forall2_in _ _ _ F) as (_ & F2). destruct (F2 r' I) as (r & R & K & _). eauto.
    + intros N. rewrite N in F. inv F. auto.
  - pose proof (set_sort_any G c b s) as (l & f & P & E & _). rewrite E. eapply of_type_same; [exact IH| | |reflexivity|reflexivity]; cbn.
    + intros r' I. exists r'. split; auto. apply (Permutation_in r' (Permutation_sym P) I).
    + intros N. rewrite N in P. apply Permutation_nil in P. auto.
Qed.

Lemma homogeneous G s : typed G s ->
  (s_type s = None -> s_rules s = []) /\ (forall t r, s_type s = Some t -> In r (s_rules s) -> instance r t).
Proof.
  intros H. apply typed_of_type in H. unfold of_type in H. destruct (s_type s) as [t|].
  - split; [discriminate|]. intros u r E I. injection E as <-. auto.
  - split; auto. discriminate.
Qed.


(** ** Features *)

Definition features_kept (s : ruleset) : Prop :=
  (forall f, In f (s_names s) <-> feature_name (s_rules s) f) /\ (forall i, In i (s_idx s) <-> feature_index (s_rules s) i) /\
  NoDup (s_names s).

Lemma feature_name_app l m f : feature_name (l ++ m) f <-> feature_name l f \/ feature_name m f.
Proof.
  split.
  - intros (r & c & n & R & K). apply in_app_or in R as [R|R]; [left|right]; exists r, c, n; auto.
  - intros [(r & c & n & R & K)|(r & c & n & R & K)]; exists r, c, n; (split; [apply in_or_app; auto|auto]).
Qed.

Lemma feature_index_app l m f : feature_index (l ++ m) f <-> feature_index l f \/ feature_index m f.
Proof.
  split.
  - intros (r & c & n & R & K). apply in_app_or in R as [R|R]; [left|right]; exists r, c, n; auto.
  - intros [(r & c & n & R & K)|(r & c & n & R & K)]; exists r, c, n; (split; [apply in_or_app; auto|auto]).
Qed.

Lemma new_set_features G l compute stacking s : new_set G l compute stacking = Ok s -> features_kept s.
Proof.
  destruct l as [l|].
  - intros H. apply new_set_ok in H as (B & _). split; [apply (bu_names _ _ _ _ _ B)|]. split; [apply (bu_idx _ _ _ _ _ B)|apply (bu_nodup _ _ _ _ _ B)].
  - unfold new_set. cbn. intros H. assert (E : s = empty_set stacking) by (destruct (g_check G); cbn in H; congruence). subst s.
    split; [|split; [|constructor]]; cbn; (split; [intros []|intros (r & _ & _ & [] & _)]).
Qed.

Lemma add_rule_features G r s s' : features_kept s -> add_rule G r s = (Ok tt, s') -> features_kept s'.
Proof.
  intros (F1 & F2 & F3) H. apply add_rule_ok in H. destruct H as [R _ _ (c & i & n & C & Ci & Cn & Ei & En) _ _ _].
  unfold features_kept. rewrite R, Ei, En. split; [|split; [|apply (set_of_NoDup _ str_eqb_iff)]].
  - intros f. rewrite (set_of_In _ str_eqb_iff), in_app_iff, feature_name_app, F1. apply or_iff_compat_l. split.
    + intros I. exists r, c, n. cbn; auto.
    + intros (q & d & m & [<-|[]] & K1 & K2 & K3). congruence.
  - intros f. rewrite (set_of_In _ z_eqb_spec), in_app_iff, feature_index_app, F2. apply or_iff_compat_l. split.
    + intros I. exists r, c, i. cbn; auto.
    + intros (q & d & m & [<-|[]] & K1 & K2 & K3). congruence.
Qed.

Lemma add_set_features t s s' : features_kept s -> features_kept t -> add_set t s = (Ok tt, s') -> features_kept s'.
Proof.
  intros (F1 & F2 & F3) (T1 & T2 & T3) H. apply add_set_ok in H. destruct H as [R _ _ Ei En _ _ _].
  unfold features_kept. rewrite R, Ei, En. split; [|split; [|apply (set_of_NoDup _ str_eqb_iff)]].
  - intros f. rewrite (set_of_In _ str_eqb_iff), in_app_iff, feature_name_app, F1, T1. tauto.
  - intros f. rewrite (set_of_In _ z_eqb_spec), in_app_iff, feature_index_app, F2, T2. tauto.
Qed.

Lemma features_same s s' : (forall r, In r (s_rules s) -> exists r', In r' (s_rules s') /\ r_cond r' = r_cond r) ->
  (forall r, In r (s_rules s') -> exists r', In r' (s_rules s) /\ r_cond r' = r_cond r) ->
  s_names s' = s_names s -> s_idx s' = s_idx s -> features_kept s -> features_kept s'.
Proof.
  intros A B N I (F1 & F2 & F3). unfold features_kept. rewrite N, I. split; [|split; [|auto]]; intros f; [rewrite F1|rewrite F2]; split;
    intros (r & c & l & R & K1 & K2).
  - destruct (A r R) as (r' & R' & E). exists r', c, l. rewrite E. auto.
  - destruct (B r R) as (r' & R' & E). exists r', c, l. rewrite E. auto.
  - destruct (A r R) as (r' & R' & E). exists r', c, l. rewrite E. auto.
  - destruct (B r R) as (r' & R' & E). exists r', c, l. rewrite E. auto.
Qed.

Lemma made_features G mixed s : made G mixed s -> features_kept s.
Proof.
  induction 1 as [l stack s H|s r s' M IH H|s r s' M IH H|s t s' M IH M' IH' X H|s r s' M IH H|s t s' M IH M' IH' H|s a b c s' M IH H
                 |s l s' M IH H|s xs s' M IH H|s c b s' M IH H].
  - eapply new_set_features; eauto.
  - apply append_true in H as (s1 & H & ->). apply (add_rule_features G r s s1 IH) in H. exact H.
  - eapply add_rule_features; eauto.
  - apply (add_set_features t s); auto.
  - unfold plus_rule in H. eapply new_set_features; eauto.
  - unfold plus_set in H. destruct (rule_set _ _) as [l|]; [|discriminate]. cbn [rbind] in H. eapply new_set_features; eauto.
  - unfold getitem_slice in H. destruct (slice_range _ _ _ _); [|discriminate]. cbn [rbind] in H. destruct (rseq _) in H; [|discriminate]. cbn [rbind] in H.
    eapply new_set_features; eauto.
  - apply use_ok in H as (t & H & E). injection E as <-. apply new_set_features in H. exact H.
  - pose proof (set_calc_any G xs s) as (F & _ & N & I). rewrite H in F, N, I. cbn in F, N, I. destruct (forall2_in _ _ _ F) as (F1 & F2).
    eapply features_same; [| |exact N|exact I|exact IH].
    + intros r R. destruct (F1 r R) as (r' & R' & _ & E). eauto.
    + intros r R. destruct (F2 r R) as (r' & R' & _ & E). exists r'. auto.
  - pose proof (set_sort_any G c b s) as (l & f & P & E & _). rewrite H in E. cbn in E. subst s'.
    apply (features_same s); auto; cbn.
    + intros r R. exists r. split; auto. apply (Permutation_in r P R).
    + intros r R. exists r. split; auto. apply (Permutation_in r (Permutation_sym P) R).
Qed.

Lemma features_ok G mixed s : made G mixed s ->
  (forall f, In f (s_names s) <-> feature_name (s_rules s) f) /\ (forall i, In i (s_idx s) <-> feature_index (s_rules s) i) /\
  NoDup (s_names s).
Proof. apply made_features. Qed.

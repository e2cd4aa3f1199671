(** What other rulesets can rely on, whatever is done: the classes and conditions of
    the rules, and the DataFrames; and which DataFrames are the same objects. *)
From Coq Require Import List ZArith QArith Bool String Lia.
From Coq Require Import List.
From Verif Require Import Base Num CondModel ThrModel MetModel RuleModel PredModel SetModel SetSpec SetBase SetAdd SetEq FitModel SerialModel SerialSave
  PoolModel PoolSpec PoolBase PoolStep PoolLearn PoolProofs PoolMore PoolView.
From Verif Require RuleMisc.
Import ListNotations.
Open Scope string_scope.
Open Scope list_scope.
Open Scope Z_scope.

Lemma rename_still : forall labels rules rules', rename labels rules = Ok rules' -> Forall2 still rules rules'.
Proof.
  induction labels as [|n labels IH]; intros [|r rules] rules' E; cbn [rename] in E; try discriminate; try (injection E as <-; apply stills_refl).
  destruct (rename labels rules) as [m|] eqn:Q; [|discriminate]. injection E as <-. constructor; auto. split; reflexivity.
Qed.

Lemma to_df_still X custom a s : Forall2 still (s_rules s) (s_rules (snd (to_df X custom a s))).
Proof.
  unfold to_df. destruct (s_rules s) as [|r0 l0] eqn:L; [cbn [snd]; rewrite L; constructor|]. rewrite <- L. destruct (s_type s) as [k|]; [|apply stills_refl]. cbv zeta.
  match goal with |- context [use ?x _ _] => destruct x as [rows|] end; cbn [use]; [|apply stills_refl].
  destruct (rename (map fst rows) (s_rules s)) as [rules|] eqn:R; [|apply stills_refl].
  cbn [use]. apply rename_still in R. destruct (negb a); [exact R|]. destruct (ruleset_coverage (with_rules rules s)); exact R.
Qed.

(** ** The class and the condition of a rule *)

(** Commands that work on the rules of a ruleset keep their classes and conditions. *)
Lemma works_still (G : setup) (X : texts) (c : command) (p p' : pool) (o : res unit) (j l : nat) :
  exec G X c p = (o, p') -> works_on c j -> still (p_rules p l) (p_rules p' l).
Proof.
  intros E W. destruct W; cbn [exec] in E.
  - unfold pool_calc, method in E. destruct (get p i) as [h|] eqn:A; [|injection E as <- <-; apply still_refl].
    pose proof (set_calc_any G xs (view p h)) as (S & _). destruct (set_calc_activation G xs (view p h)) as [o1 s']. cbv zeta in E. cbn [snd] in S.
    assert (K : still (p_rules p l) (put_all (b_rules h) (s_rules s') (p_rules p) l)) by (apply put_all_still; exact S).
    destruct (s_stacked s'); [|injection E as <- <-; exact K]. destruct o1; [|injection E as <- <-; exact K].
    destruct (_ && _); injection E as <- <-; exact K.
  - unfold pool_del_activations, pool_change, method in E. destruct (get p i) as [h|] eqn:A; [|injection E as <- <-; apply still_refl].
    cbn in E. injection E as <- <-. cbn. apply put_all_still. induction (map (p_rules p) (b_rules h)) as [|r t IH]; cbn; constructor; auto.
    unfold del_activation. destruct (r_act r); split; reflexivity.
  - unfold pool_to_df, pool_change, method in E. destruct (get p i) as [h|] eqn:A; [|injection E as <- <-; apply still_refl].
    pose proof (to_df_still X None a (view p h)) as S. destruct (to_df X None a (view p h)) as [o1 s']. injection E as <- <-. cbn.
    apply put_all_still. exact S.
  - destruct (get p i) as [h|] eqn:A; [|unfold pool_fit, look in E; rewrite A in E; injection E as <- <-; apply still_refl]. apply get_ok in A.
    destruct (tracks_fit G p i h y series xs force kw A) as (h' & P & _). rewrite E in P. apply (ph_still _ _ _ _ _ P).
  - destruct (get p i) as [h|] eqn:A; [|unfold pool_eval, look in E; rewrite A in E; injection E as <- <-; apply still_refl]. apply get_ok in A.
    destruct (tracks_eval G p i h y xs keep_new w force kw A) as (h' & P & _). rewrite E in P. apply (ph_still _ _ _ _ _ P).
  - destruct (get p i) as [h|] eqn:A; [|unfold pool_predict, phase in E; rewrite A in E; injection E as <- <-; apply still_refl]. apply get_ok in A.
    destruct (tracks_predict G p i h xs w A) as (h' & P & _). rewrite E in P. apply (ph_still _ _ _ _ _ P).
Qed.

Lemma exec_still (G : setup) (X : texts) (c : command) (p p' : pool) (o : res unit) (l : nat) :
  exec G X c p = (o, p') -> g_indexes G = [] ->
  r_kind (p_rules p' l) = r_kind (p_rules p l) /\ r_cond (p_rules p' l) = r_cond (p_rules p l).
Proof.
  intros E GI. assert (W : (exists j, works_on c j) \/ (forall i, ~ works_on c i)).
  { destruct c; try (right; intros i' W; inversion W; fail); left; exists i; constructor. }
  destruct W as [(j & W)|N]; [eapply works_still; eauto|].
  apply exec_does in E as ([R _ _ _] & _). rewrite R; auto. intros [(i & h & W & _)|(GN & _)]; [exact (N i W)|auto].
Qed.

Lemma history_still (G : setup) (X : texts) (cs : list command) (p : pool) (l : nat) : g_indexes G = [] ->
  r_kind (p_rules (exec_all G X cs p) l) = r_kind (p_rules p l) /\ r_cond (p_rules (exec_all G X cs p) l) = r_cond (p_rules p l).
Proof.
  intros GI. revert p. induction cs as [|c cs IH]; intros p; cbn [exec_all]; auto.
  destruct (exec G X c p) as [o p1] eqn:E. cbn [snd]. destruct (IH p1) as (A & B). destruct (exec_still G X c p p1 o l E GI). split; congruence.
Qed.

(** Whatever is done to rulesets, their rules are equal to the same rules, have the same
    hash, and hold for the same data. *)
Lemma history_rules (G : setup) (X : texts) (cs : list command) (p : pool) (l m : nat) : g_indexes G = [] ->
  let p' := exec_all G X cs p in
  (forall H, rule_eq H (p_rules p' l) (p_rules p' m) = rule_eq H (p_rules p l) (p_rules p m)) /\
  (forall H, rule_hash H (p_rules p' l) = rule_hash H (p_rules p l)) /\
  (forall xs, evaluate_activation (p_rules p' l) xs = evaluate_activation (p_rules p l) xs).
Proof.
  intros GI. cbv zeta. destruct (history_still G X cs p l GI) as (_ & A). destruct (history_still G X cs p m GI) as (_ & B).
  split; [|split]; intros H.
  - apply RuleMisc.rule_eq_only_condition; auto.
  - apply (RuleMisc.rule_eq_only_condition H (p_rules p l) (p_rules p m) _ _ A B).
  - unfold evaluate_activation. rewrite A. auto.
Qed.

(** ** With all_features_indexes *)

(** Everything but the indexes of the condition *)
Definition same_conditions (a b : option cond) : Prop :=
  match a, b with
  | None, None => True
  | Some c, Some d => c_names d = c_names c /\ c_min d = c_min c /\ c_max d = c_max c /\ c_imp d = c_imp c
  | _, _ => False
  end.

Definition numbered_alike (r r' : rule) : Prop := r_kind r' = r_kind r /\ same_conditions (r_cond r) (r_cond r').

Lemma alike_refl r : numbered_alike r r.
Proof. split; auto. unfold same_conditions. destruct (r_cond r); auto. Qed.

Lemma alike_trans a b c : numbered_alike a b -> numbered_alike b c -> numbered_alike a c.
Proof.
  unfold numbered_alike, same_conditions. intros (A1 & A2) (B1 & B2). split; [congruence|].
  destruct (r_cond a), (r_cond b), (r_cond c); try contradiction; auto. destruct A2 as (? & ? & ? & ?), B2 as (? & ? & ? & ?). repeat split; congruence.
Qed.

Lemma still_alike r r' : still r r' -> numbered_alike r r'.
Proof. intros (A & B). split; auto. rewrite B. apply alike_refl. Qed.

Lemma renumber_alike G r r' : renumber G r = Ok r' -> numbered_alike r r'.
Proof.
  unfold renumber, numbered_alike. destruct (r_cond r) as [c|]; [|discriminate]. unfold need. destruct (c_names c) eqn:N; cbn [rbind]; [|discriminate].
  destruct (rseq _); cbn; [|discriminate]. intros E. injection E as <-. cbn. rewrite N. auto.
Qed.

Lemma put_all_alike (heap : nat -> rule) : forall ls rules, Forall2 numbered_alike (map heap ls) rules ->
  forall k, numbered_alike (heap k) (put_all ls rules heap k).
Proof.
  induction ls as [|l ls IH]; intros rules F k; inversion F; subst; cbn [put_all]; [apply alike_refl|].
  unfold put_at. destruct (Nat.eqb_spec k l); [subst; auto|auto].
Qed.

Lemma new_alike G (heap : nat -> rule) ls compute stacking s k : new_set G (Some (map ERule (map heap ls))) compute stacking = Ok s ->
  numbered_alike (heap k) (put_all ls (s_rules s) heap k).
Proof.
  intros E. apply put_all_alike. apply new_rules_cases in E as [->|E].
  - induction (map heap ls); constructor; auto. apply alike_refl.
  - induction E; constructor; eauto using renumber_alike.
Qed.

Lemma pool_new_alike G ls compute stacking p o p' k :
  pool_new ls (new_set G (Some (map ERule (map (p_rules p) ls))) compute stacking) p = (o, p') -> numbered_alike (p_rules p k) (p_rules p' k).
Proof.
  unfold pool_new. destruct (new_set _ _ _ _) as [s|] eqn:N; [|intros E; injection E as <- <-; apply alike_refl].
  apply (new_alike _ _ _ _ _ _ k) in N.
  destruct (fresh_cases s (keep_rules ls (s_rules s) p)) as [(W & F)|(f & W & F)]; rewrite F; intros E; injection E as <- <-; exact N.
Qed.

Lemma exec_alike G X c p o p' l : exec G X c p = (o, p') -> numbered_alike (p_rules p l) (p_rules p' l).
Proof.
  intros E. assert (W : (exists j, works_on c j) \/ constructs c \/ (forall i, ~ works_on c i) /\ ~ constructs c).
  { destruct c; try (left; exists i; constructor; fail); try (right; left; constructor; fail);
      right; right; (split; [intros i' W; inversion W|intros W; inversion W]). }
  destruct W as [(j & W)|[W|(W1 & W2)]].
  - apply still_alike. eapply works_still; eauto.
  - destruct W; cbn [exec] in E.
    + unfold pool_empty, pool_new in E. destruct (new_set G None true stack) as [s|]; [|injection E as <- <-; apply alike_refl].
      destruct (fresh_cases s (keep_rules [] (s_rules s) p)) as [(Q & F)|(f & Q & F)]; rewrite F in E; injection E as <- <-; apply alike_refl.
    + unfold pool_init in E. eapply pool_new_alike; eauto.
    + unfold pool_plus_rule, method in E. destruct (get p i) as [h|]; [|injection E as <- <-; apply alike_refl].
      eapply (pool_new_alike G (b_rules h ++ [l0])). rewrite map_app. exact E.
    + unfold pool_plus_set in E. destruct (get p j) as [g|]; [|injection E as <- <-; apply alike_refl].
      unfold method in E. destruct (get p i) as [h|]; [|injection E as <- <-; apply alike_refl].
      destruct (distinct_rules _ _ _ _) as [ls|] eqn:D in E; [|injection E as <- <-; apply alike_refl].
      destruct (distinct_rules_set _ _ _ _ D) as (m & M1 & M2).
      unfold plus_set in E. cbn [s_rules view with_rules with_stacked] in E. rewrite <- map_app, M1 in E. cbn [rbind] in E.
      rewrite <- map_map, M2 in E. eapply pool_new_alike; eauto.
    + unfold pool_set_rules, method in E. destruct (get p i) as [h|]; [|injection E as <- <-; apply alike_refl].
      unfold set_rules, use in E.
      destruct (new_set G (Some (map ERule (map (p_rules p) ls))) true (s_stack (view p h))) as [t|] eqn:N; [|injection E as <- <-; apply alike_refl].
      cbn [done] in E. apply (new_alike _ _ _ _ _ _ l) in N.
      match type of E with (let (f, p0) := fresh_frame ?x ?y in _) = _ => destruct (fresh_cases x y) as [(Q & F)|(f & Q & F)]; rewrite F in E end;
        injection E as <- <-; exact N.
    + unfold pool_slice, method in E. destruct (get p i) as [h|]; [|injection E as <- <-; apply alike_refl].
      destruct (slice_range a b c (Z.of_nat (List.length (b_rules h)))) as [idx|] eqn:I; [|injection E as <- <-; apply alike_refl].
      cbn [rbind] in E. destruct (rseq (map (py_index (b_rules h)) idx)) as [ls|] eqn:L; [|injection E as <- <-; apply alike_refl].
      destruct (picked (p_rules p) _ _ _ L) as (P1 & P2).
      unfold getitem_slice in E. cbn [s_rules view with_rules with_stacked] in E. rewrite map_length, I in E. cbn [rbind] in E. rewrite P2 in E.
      eapply pool_new_alike; eauto.
  - apply exec_does in E as ([R _ _ _] & _). rewrite R; [apply alike_refl|]. intros [(i & h & W & _)|(_ & W & _)]; [exact (W1 i W)|auto].
Qed.

(** With all_features_indexes, the names, the bounds and the class are kept. *)
Lemma history_alike (G : setup) (X : texts) (cs : list command) (p : pool) (l : nat) :
  let r := p_rules p l in let r' := p_rules (exec_all G X cs p) l in
  r_kind r' = r_kind r /\ (r_cond r = None <-> r_cond r' = None) /\
  forall c c', r_cond r = Some c -> r_cond r' = Some c' ->
    c_names c' = c_names c /\ c_min c' = c_min c /\ c_max c' = c_max c /\ c_imp c' = c_imp c.
Proof.
  cbv zeta. assert (A : numbered_alike (p_rules p l) (p_rules (exec_all G X cs p) l)).
  { revert p. induction cs as [|c cs IH]; intros p; cbn [exec_all]; [apply alike_refl|].
    destruct (exec G X c p) as [o p1] eqn:E. cbn [snd]. eapply alike_trans; [eapply exec_alike; eauto|apply IH]. }
  destruct A as (A & B). unfold same_conditions in B.
  destruct (r_cond (p_rules p l)), (r_cond (p_rules (exec_all G X cs p) l)); try contradiction; repeat split; try discriminate; intuition congruence.
Qed.

(** ** DataFrames *)

Lemma exec_frames G X c p o p' k : exec G X c p = (o, p') -> (k < p_next p)%nat ->
  (forall i h, adds c i -> ruleset_at p i h -> b_frame h <> Some k) -> p_frames p' k = p_frames p k /\ (k < p_next p')%nat.
Proof.
  intros E K N. apply exec_does in E as ([_ F B _] & _). split; [apply F; auto|lia]. intros (i & h & W & A & Q). exact (N i h W A Q).
Qed.

(** Only adding a rule in place changes a DataFrame: other rulesets keep theirs. *)
Lemma history_frames (G : setup) (X : texts) (cs : list command) (p : pool) (j : nat) (h : handle) :
  in_use p -> ruleset_at p j h -> (forall c, In c cs -> ~ target c j /\ forall i, ~ adds c i) ->
  let p' := exec_all G X cs p in
  ruleset_at p' j h /\ s_stacked (view p' h) = s_stacked (view p h) /\
  view p' h = with_rules (map (p_rules p') (b_rules h)) (view p h).
Proof.
  intros U A C. cbv zeta.
  assert (K : ruleset_at (exec_all G X cs p) j h /\ forall k, (k < p_next p)%nat -> p_frames (exec_all G X cs p) k = p_frames p k).
  { revert p U A. induction cs as [|c cs IH]; intros p U A; cbn [exec_all]; auto.
    destruct (exec G X c p) as [o p1] eqn:E. cbn [snd]. destruct (C c (or_introl eq_refl)) as (C1 & C2).
    destruct (other_kept _ _ _ _ _ _ j h E A C1) as (A1 & _).
    destruct (IH (fun d D => C d (or_intror D)) p1 (in_use_step _ _ _ _ _ _ E U) A1) as (B1 & B2). split; auto.
    intros k K. destruct (exec_frames G X c p o p1 k E K) as (F1 & F2); [intros i g W; destruct (C2 i W)|]. rewrite B2; auto. }
  destruct K as (A1 & F). split; auto.
  assert (S : option_map (p_frames (exec_all G X cs p)) (b_frame h) = option_map (p_frames p) (b_frame h)).
  { destruct (b_frame h) as [k|] eqn:B; cbn; auto. f_equal. apply F. eapply U; eauto. }
  split; [exact S|]. unfold view. rewrite S. destruct (b_rest h); reflexivity.
Qed.

(** Which DataFrame a ruleset has after fit, eval, predict and calc_activation: the
    one it had, or another. *)
From Coq Require Import List ZArith QArith Bool String Lia.
From Coq Require Import List.
From Verif Require Import Base Num CondModel ThrModel MetModel RuleModel PredModel SetModel SetSpec SetBase SetAdd SetEq SetSort FitModel SerialModel
  PoolModel PoolSpec PoolBase PoolStep PoolLearn PoolProofs PoolMore PoolView.
Import ListNotations.
Open Scope string_scope.
Open Scope list_scope.
Open Scope Z_scope.

Definition frame_of {A} (h : handle) (fresh : bool) (o : res A) (s' : ruleset) (n : nat) : option nat :=
  match s_stacked s', b_frame h, o with
  | None, _, _ => None
  | Some _, None, _ => Some n
  | Some _, Some k, Ok _ => if fresh then Some n else Some k
  | Some _, Some k, Err _ => Some k
  end.

Lemma phase_frame {A} p i h fresh (f : ruleset -> res A * ruleset) : ruleset_at p i h ->
  exists h', ruleset_at (snd (phase i fresh f p)) i h' /\ b_rules h' = b_rules h /\ b_rest h' = snd (f (view p h)) /\
    b_frame h' = frame_of h (fresh (view p h)) (fst (f (view p h))) (snd (f (view p h))) (p_next p) /\
    (p_next p <= p_next (snd (phase i fresh f p)))%nat /\
    (b_frame h' = Some (p_next p) -> b_frame h <> Some (p_next p) -> p_next (snd (phase i fresh f p)) = S (p_next p)) /\
    fst (phase i fresh f p) = fst (f (view p h)).
Proof.
  intros A1. unfold phase. rewrite (proj2 (get_ok _ _ _) A1). destruct (f (view p h)) as [o s']. cbn [fst snd].
  unfold frame_after_step, frame_of, new_frame.
  destruct (s_stacked s') as [fr|]; [destruct (b_frame h) as [k|] eqn:B; [destruct o as [a|e]; [destruct (fresh (view p h))|]|]|]; cbn [fst snd keep_rules p_next keep_set p_rules p_frames p_sets];
    (eexists; split; [eapply at_kept; exact A1|cbn; repeat split; auto; try lia; congruence]).
Qed.

(** ** The DataFrame stays *)

Definition stays (i : nat) (h : handle) (p : pool) : Prop :=
  exists h', ruleset_at p i h' /\ b_rules h' = b_rules h /\ b_frame h' = b_frame h.

Lemma stays_phase {A} i h (fresh : ruleset -> bool) (f : ruleset -> res A * ruleset) p1 h1 : ruleset_at p1 i h1 -> b_rules h1 = b_rules h -> b_frame h1 = b_frame h ->
  fresh (view p1 h1) = false -> s_stacked (snd (f (view p1 h1))) = s_stacked (view p1 h1) ->
  exists h2, ruleset_at (snd (phase i fresh f p1)) i h2 /\ b_rules h2 = b_rules h /\ b_frame h2 = b_frame h /\ b_rest h2 = snd (f (view p1 h1)).
Proof.
  intros A1 R F FR S. destruct (phase_frame p1 i h1 fresh f A1) as (h2 & A2 & R2 & T2 & B2 & _). exists h2. repeat split; auto; try congruence.
  rewrite B2. unfold frame_of. rewrite FR, S. cbn. rewrite F. destruct (b_frame h); cbn; auto. destruct (fst (f (view p1 h1))); auto.
Qed.

Lemma stacked_there p h k : b_frame h = Some k -> not_stacked (view p h) = false.
Proof. intros B. unfold not_stacked. cbn. rewrite B. auto. Qed.

Lemma assign_all_stacked E mark attrs s : s_stacked (snd (assign_all E mark attrs s)) = s_stacked s.
Proof. unfold assign_all. destruct (assign_rules _ _ _ _ _). auto. Qed.

Lemma fit_assign_stacked G k y series kw s : s_stacked (snd (fit_assign G k y series false kw s)) = s_stacked s.
Proof. unfold fit_assign, use. match goal with |- context [match ?x with Ok _ => _ | Err _ => _ end] => destruct x end; auto. apply assign_all_stacked. Qed.

Lemma eval_assign_stacked G k y kw f s : s_stacked (snd (eval_assign G k y false kw f s)) = s_stacked s.
Proof. unfold eval_assign, use. match goal with |- context [match ?x with Ok _ => _ | Err _ => _ end] => destruct x end; auto. apply assign_all_stacked. Qed.

Lemma for_each_attributes f s : let s' := snd (for_each f s) in s_stacked s' = s_stacked s /\ s_stack s' = s_stack s /\ s_act s' = s_act s.
Proof. unfold for_each. destruct (each f (s_rules s)). auto. Qed.

Lemma fit_alone_attributes G k y series xs force kw s : g_stacked G = false -> let s' := snd (fit_rules G k y series xs force kw s) in
  s_stacked s' = s_stacked s /\ s_stack s' = s_stack s /\ s_act s' = s_act s.
Proof.
  intros ST. unfold fit_rules. rewrite ST. pose proof (for_each_attributes (RuleModel.fit (g_env G) y xs force kw) s) as H.
  destruct (for_each _ s) as [[u|e] s1]; cbn in *; auto.
Qed.

Lemma eval_alone_attributes G k y xs keep_new force kw s : g_stacked G = false -> let s' := snd (eval_rules G k y xs keep_new force kw s) in
  s_stacked s' = s_stacked s /\ s_stack s' = s_stack s /\ s_act s' = s_act s.
Proof.
  intros ST. unfold eval_rules. rewrite ST. pose proof (for_each_attributes (RuleModel.eval (g_env G) y xs keep_new force kw) s) as H.
  destruct (for_each _ s) as [[u|e] s1]; cbn in *; auto.
Qed.

Lemma self_attributes xs s : let s' := snd (compute_self_activation xs s) in s_stacked s' = s_stacked s /\ s_stack s' = s_stack s.
Proof. unfold compute_self_activation, use. destruct (evaluate_self_activation xs s); auto. Qed.

Lemma predict_stacked_kept G xs w s : s_stacked (snd (set_predict G xs w s)) = s_stacked s.
Proof. unfold set_predict. destruct (predict_rules _ _ _ _ _ _ _ _); auto. Qed.

Lemma criterion_activation_stacked xs s : s_stacked (snd (criterion_activation xs s)) = s_stacked s.
Proof.
  unfold criterion_activation. destruct xs as [t|].
  - unfold use. destruct (evaluate_self_activation (Some t) s); auto.
  - destruct (no_activation s); auto. pose proof (self_attributes None s) as (Q & _). destruct (compute_self_activation None s) as [[u|e] s1]; cbn in *; auto.
Qed.

Lemma criterion_stacked G y xs w kw s : s_stacked (snd (calc_criterion G y xs w kw s)) = s_stacked s.
Proof.
  unfold calc_criterion. destruct (s_rules s) as [|r l]; auto. destruct (s_type s) as [k|]; auto.
  pose proof (predict_stacked_kept G xs w s) as P. destruct (set_predict G xs w s) as [[a|e] s1]; cbn [next snd] in *; auto.
  destruct (is_nothing a); auto. destruct k, a; auto.
  - match goal with |- context [use ?x _ _] => destruct x; auto end.
  - pose proof (criterion_activation_stacked xs s1) as Q. destruct (criterion_activation xs s1) as [[o|e] s2]; cbn [next snd] in *; [|congruence].
    match goal with |- context [use ?x _ _] => destruct x; cbn; congruence end.
Qed.

(** Rules are lost when there are rules to drop. *)
Lemma among_self H heap l drop b : among_objects H heap l drop = Ok b -> In l drop -> b = true.
Proof.
  induction drop as [|d t IH]; intros E [].
  - subst. cbn in E. rewrite Nat.eqb_refl in E. congruence.
  - cbn in E. destruct (l =? d)%nat; [congruence|]. destruct (rule_eq _ _ _) as [[]|]; cbn in E; try congruence. auto.
Qed.

Lemma filter_shorter {A} (f : A -> bool) l : (List.length (filter f l) <= List.length l)%nat.
Proof. induction l as [|a l IH]; cbn; auto. destruct (f a); cbn; lia. Qed.

Lemma kept_shorter H heap drop : forall ls ls' d, kept_objects H heap ls drop = Ok ls' -> In d ls -> In d drop -> (List.length ls' < List.length ls)%nat.
Proof.
  intros ls ls' d. unfold kept_objects. revert ls'. induction ls as [|l ls IH]; intros ls' E I D; [destruct I|]. cbn in E.
  destruct (among_objects H heap l drop) as [b|] eqn:M; [|discriminate]. cbn in E.
  destruct (rseq _) as [m|] eqn:Q in E; [|discriminate]. cbn in E. injection E as <-.
  assert (LM : List.length m = List.length ls).
  { apply rseq_map_ok in Q. clear -Q. induction Q; cbn; auto. }
  destruct I as [->|I].
  - rewrite (among_self _ _ _ _ _ M D). cbn. rewrite map_length. pose proof (filter_shorter (fun q : bool * nat => negb (fst q)) m). lia.
  - rewrite Q in IH. specialize (IH _ eq_refl I D). cbn. destruct b; cbn; lia.
Qed.

Lemma drop_shorter G p i h drop o p' : ruleset_at p i h -> numbers_rules (s_rules (view p h)) drop <> [] -> pool_drop G i drop p = (o, p') -> o = Ok tt ->
  exists h', ruleset_at p' i h' /\ b_frame h' = None /\ (List.length (b_rules h') < List.length (b_rules h))%nat.
Proof.
  intros A N E ->. unfold pool_drop, method in E. rewrite (proj2 (get_ok _ _ _) A) in E.
  destruct (kept_objects _ _ _ _) as [ls|] eqn:K in E; [|discriminate].
  destruct (rebuild G (map (p_rules p) ls) (view p h)) as [o1 s'] eqn:R. injection E as -> <-.
  eexists. split; [eapply at_kept; exact A|]. cbn. split; auto.
  assert (D : exists d, In d (b_rules h) /\ In d (objects_at (b_rules h) drop)).
  { revert N. cbn. unfold numbers_rules, objects_at. clear. induction drop as [|n drop IH]; cbn; [congruence|].
    rewrite nth_error_map. destruct (nth_error (b_rules h) n) as [d|] eqn:Q; cbn.
    - intros _. exists d. split; [eapply nth_error_In; eauto|left; auto].
    - auto. }
  destruct D as (d & D1 & D2). pose proof (kept_shorter _ _ _ _ _ d K D1 D2) as L. rewrite firstn_length. lia.
Qed.

(** [h] at [i], or fewer rules *)
Definition stays_or_less (i : nat) (h : handle) (p : pool) : Prop :=
  exists h', ruleset_at p i h' /\ (b_rules h' = b_rules h /\ b_frame h' = b_frame h \/ (List.length (b_rules h') < List.length (b_rules h))%nat).

Lemma less_phase {A} i h (fresh : ruleset -> bool) (f : ruleset -> res A * ruleset) p1 : stays_or_less i h p1 ->
  (forall h1, ruleset_at p1 i h1 -> b_frame h1 = b_frame h -> fresh (view p1 h1) = false /\ s_stacked (snd (f (view p1 h1))) = s_stacked (view p1 h1)) ->
  stays_or_less i h (snd (phase i fresh f p1)).
Proof.
  intros (h1 & A1 & [(R & F)|L]) C.
  - destruct (C h1 A1 F) as (C1 & C2). destruct (stays_phase i h fresh f p1 h1 A1 R F C1 C2) as (h2 & A2 & R2 & F2 & _). exists h2. auto.
  - destruct (phase_frame p1 i h1 fresh f A1) as (h2 & A2 & R2 & _). exists h2. split; auto. right. congruence.
Qed.

Lemma then_ok {A B} (m : res A * pool) (f : A -> pool -> res B * pool) b p' : and_then m f = (Ok b, p') -> exists a p1, m = (Ok a, p1) /\ f a p1 = (Ok b, p').
Proof. destruct m as [[a|e] p1]; cbn; intros E; [eauto|discriminate]. Qed.

Lemma look_ok {A} i (f : ruleset -> pool -> res A * pool) p h : ruleset_at p i h -> look i f p = f (view p h) p.
Proof. intros A1. unfold look. rewrite (proj2 (get_ok _ _ _) A1). auto. Qed.

Lemma refresh_rules G i act stacked p h : ruleset_at p i h ->
  exists h', ruleset_at (snd (pool_refresh G i act stacked p)) i h' /\ b_rules h' = b_rules h.
Proof.
  intros A. unfold pool_refresh. destruct (phase_frame p i h never (fun s => if act then compute_self_activation None (with_activation None s) else done s) A) as (h1 & A1 & R1 & _).
  destruct (phase i never _ p) as [[u|e] p1]; cbn [and_then snd fst] in *; [|eauto].
  match goal with |- context [phase i ?a ?b p1] => destruct (phase_frame p1 i h1 a b A1) as (h2 & A2 & R2 & _) end. exists h2. split; auto. congruence.
Qed.

(** fit without xs keeps the DataFrame unless it drops rules. *)
Lemma fit_keeps_frame (G : setup) (X : texts) (p p' : pool) (i k : nat) (y : MetModel.target label) (series force : bool) (kw : keywords) (h h' : handle) :
  exec G X (Fit i y series None force kw) p = (Ok tt, p') -> ruleset_at p i h -> b_frame h = Some k ->
  ruleset_at p' i h' -> List.length (b_rules h') = List.length (b_rules h) ->
  b_frame h' = Some k.
Proof.
  intros E A B A' L. cut (stays_or_less i h p').
  { intros (h2 & A2 & C). assert (h2 = h') as -> by (unfold ruleset_at in *; congruence). destruct C as [(C1 & C2)|C]; [congruence|lia]. }
  assert (Z : stays_or_less i h p) by (exists h; auto).
  cbn [exec] in E. unfold pool_fit in E. rewrite (look_ok _ _ _ _ A) in E.
  destruct (learns (view p h) kw) as [kd|]; [|discriminate]. cbn [no_rows] in E.
  destruct (s_rules (view p h)) as [|r l]; [injection E as <-; auto|].
  destruct (_ && _); [injection E as <-; auto|]. cbv zeta in E.
  apply then_ok in E as (drop & p1 & E1 & E).
  assert (S1 : stays_or_less i h p1 /\ exists h1, ruleset_at p1 i h1 /\ b_rules h1 = b_rules h /\ b_frame h1 = b_frame h).
  { assert (Q : exists h1, ruleset_at p1 i h1 /\ b_rules h1 = b_rules h /\ b_frame h1 = b_frame h).
    { unfold pool_fit_rules in E1. destruct (g_stacked G) eqn:ST.
      - rewrite (look_ok _ _ _ _ A) in E1. apply then_ok in E1 as (u & p2 & E2 & E1).
        destruct (stays_phase i h (fun s => given None || not_stacked s) (fit_activations G None) p h A eq_refl eq_refl) as (h2 & A2 & R2 & F2 & _).
        { cbn. apply (stacked_there p h k B). }
        { unfold fit_activations. rewrite (stacked_there p h k B). auto. }
        rewrite E2 in A2. cbn [snd] in A2. rewrite (stacked_there p h k B) in E1. cbn [given orb andb] in E1.
        destruct (stays_phase i h never (fit_assign G kd y series false kw) p2 h2 A2 R2 F2 eq_refl (fit_assign_stacked _ _ _ _ _ _)) as (h3 & A3 & R3 & F3 & _).
        rewrite E1 in A3. eauto.
      - destruct (stays_phase i h never (fit_rules G kd y series None force kw) p h A eq_refl eq_refl eq_refl) as (h2 & A2 & R2 & F2 & _).
        { apply fit_alone_attributes. auto. }
        rewrite E1 in A2. eauto. }
    split; auto. destruct Q as (h1 & Q1 & Q2 & Q3). exists h1. auto. }
  destruct S1 as (S1 & h1 & A1 & R1 & F1). rewrite (look_ok _ _ _ _ A1) in E. apply then_ok in E as (u & p2 & E2 & E).
  assert (S2 : stays_or_less i h p2).
  { destruct (numbers_rules (s_rules (view p1 h1)) drop) as [|d ds] eqn:N.
    - destruct (g_stacked G); [injection E2 as <- <-; auto|]. unfold pool_refresh in E2. apply then_ok in E2 as (u2 & p3 & E3 & E2).
      assert (S3 : stays_or_less i h p3).
      { pose proof (less_phase i h never (fun s => if no_activation (view p1 h1) || given (None : option table) then compute_self_activation None (with_activation None s) else done s) p1 S1) as Q.
        rewrite E3 in Q. apply Q. intros h3 A3 F3. split; auto. destruct (no_activation (view p1 h1) || given None); auto. apply (self_attributes None (with_activation None (view p1 h3))). }
      pose proof (less_phase i h (fun s => s_stack s && (not_stacked s || given (None : option table)))
        (fun s => if s_stack s && (not_stacked s || given (None : option table)) then compute_stacked_activation G None (with_stacked None s) else done s) p3 S3) as Q.
      rewrite E2 in Q. apply Q. intros h3 A3 F3. rewrite (stacked_there p3 h3 k) by congruence. cbn [orb given]. rewrite andb_false_r. auto.
    - apply then_ok in E2 as (u2 & p3 & E3 & E2). destruct (drop_shorter G p1 i h1 drop _ _ A1 ltac:(rewrite N; discriminate) E3) as (h3 & A3 & _ & L3); [destruct u2; auto|].
      destruct (refresh_rules G i true (fun _ => true) p3 h3 A3) as (h4 & A4 & R4). rewrite E2 in A4. exists h4. split; auto. right. rewrite R4, <- R1. auto. }
  pose proof (less_phase i h never (fun s => use (target_len y) (fun n s => done (with_train (integer n) s)) s) p2 S2) as Q. rewrite E in Q.
  apply Q. intros h3 _ _. split; auto. unfold use. destruct (target_len y); auto.
Qed.

(** eval without new activations keeps the DataFrame unless it drops rules; rule by rule, a
    ruleset without activation of its own stacks again. *)
Lemma eval_keeps_frame (G : setup) (X : texts) (p p' : pool) (i k : nat) (y : MetModel.target label) (xs : option table) (keep_new : bool)
    (w : option weighting) (force : bool) (kw : keywords) (h h' : handle) (a : activation) :
  exec G X (Eval i y xs keep_new w force kw) p = (Ok tt, p') -> ruleset_at p i h -> b_frame h = Some k ->
  xs = None \/ keep_new = false /\ (forall r, In r (s_rules (view p h)) -> r_fitted r = true) ->
  g_stacked G = true \/ s_act (view p h) = Some a /\ alen a <> 0 ->
  ruleset_at p' i h' -> List.length (b_rules h') = List.length (b_rules h) ->
  b_frame h' = Some k.
Proof.
  intros E A B KN OWN A' L. cut (stays_or_less i h p').
  { intros (h2 & A2 & C). assert (h2 = h') as -> by (unfold ruleset_at in *; congruence). destruct C as [(C1 & C2)|C]; [congruence|lia]. }
  assert (Z : stays_or_less i h p) by (exists h; auto).
  cbn [exec] in E. unfold pool_eval in E. rewrite (look_ok _ _ _ _ A) in E.
  destruct (learns (view p h) kw) as [kd|]; [|discriminate]. destruct (no_rows xs); [injection E as <-; auto|].
  destruct (s_rules (view p h)) as [|r l] eqn:RL; [injection E as <-; auto|].
  destruct (negb (forallb r_fitted (r :: l)) && negb (given xs)) eqn:FG; [discriminate|]. cbv zeta in E.
  set (kn := keep_new || negb (forallb r_fitted (r :: l))) in E.
  assert (KN' : given xs = false \/ given xs = true /\ kn = false).
  { destruct KN as [->|(-> & F)]; [left; auto|]. destruct (given xs); auto. right. split; auto. subst kn. cbn [orb].
    rewrite (proj2 (forallb_forall r_fitted (r :: l))); auto. }
  assert (KP : given xs && kn = false) by (destruct KN' as [->|(-> & ->)]; auto).
  rewrite KP in E.
  apply then_ok in E as (drop & p1 & E1 & E).
  assert (Q : exists h1, ruleset_at p1 i h1 /\ b_rules h1 = b_rules h /\ b_frame h1 = b_frame h /\ (g_stacked G = false -> s_act (view p1 h1) = s_act (view p h))).
  { unfold pool_eval_rules in E1. destruct (g_stacked G) eqn:ST.
    - rewrite (look_ok _ _ _ _ A) in E1. apply then_ok in E1 as (u & p2 & E2 & E1).
      assert (FR : (if given xs then kn else not_stacked (view p h)) = false).
      { rewrite (stacked_there p h k B). destruct KN' as [->|(-> & ->)]; auto. }
      destruct (stays_phase i h (fun s => if given xs then kn else not_stacked s) (eval_activations G xs kn) p h A eq_refl eq_refl FR) as (h2 & A2 & R2 & F2 & _).
      { unfold eval_activations. rewrite (stacked_there p h k B). destruct xs as [t|]; auto. destruct KN' as [N|(_ & ->)]; [discriminate|].
        unfold use. destruct (evaluate_stacked_activations _ _ _); auto. destruct (evaluate_self_activation _ _); auto. }
      rewrite E2 in A2. cbn [snd] in A2. rewrite FR in E1. cbn [andb] in E1.
      destruct (stays_phase i h never (eval_assign G kd y false kw u) p2 h2 A2 R2 F2 eq_refl (eval_assign_stacked _ _ _ _ _ _)) as (h3 & A3 & R3 & F3 & _).
      rewrite E1 in A3. exists h3. repeat split; auto. discriminate.
    - destruct (stays_phase i h never (eval_rules G kd y xs kn force kw) p h A eq_refl eq_refl eq_refl) as (h2 & A2 & R2 & F2 & T2).
      { apply eval_alone_attributes. auto. }
      rewrite E1 in A2. exists h2. repeat split; auto. intros _. cbn [view with_rules with_stacked s_act]. rewrite T2. exact (proj2 (proj2 (eval_alone_attributes G kd y xs kn force kw (view p h) ST))). }
  destruct Q as (h1 & A1 & R1 & F1 & ACT). assert (S1 : stays_or_less i h p1) by (exists h1; auto).
  rewrite (look_ok _ _ _ _ A1) in E. apply then_ok in E as (u & p2 & E2 & E).
  assert (S2 : stays_or_less i h p2).
  { destruct (numbers_rules (s_rules (view p1 h1)) drop) as [|d ds] eqn:N.
    - destruct (g_stacked G) eqn:ST; [injection E2 as <- <-; auto|]. destruct OWN as [OWN|(OWN & LEN)]; [discriminate|]. specialize (ACT eq_refl).
      assert (NA : no_activation (view p1 h1) = false) by (unfold no_activation; rewrite ACT, OWN; apply Z.eqb_neq; auto).
      rewrite NA in E2. unfold pool_refresh in E2. apply then_ok in E2 as (u2 & p3 & E3 & E2). cbn [orb] in E3.
      destruct (phase_frame p1 i h1 never (fun s => done s) A1) as (h3 & A3 & R3 & T3 & B3 & _). rewrite E3 in A3. cbn [snd] in A3.
      assert (F3 : b_frame h3 = b_frame h) by (rewrite B3; unfold frame_of; cbn; rewrite F1; destruct (b_frame h); auto).
      assert (A3' : s_act (view p3 h3) = Some a) by (cbn [view with_rules with_stacked s_act]; rewrite T3; cbn [done snd]; congruence).
      destruct (stays_phase i h (fun s => s_stack s && match s_act s with None => true | Some _ => false end)
        (fun s => if s_stack s && match s_act s with None => true | Some _ => false end then compute_stacked_activation G None (with_stacked None s) else done s)
        p3 h3 A3 (eq_trans R3 R1) F3) as (h4 & A4 & R4 & F4 & _); cbv beta; rewrite ?A3', ?andb_false_r; auto.
      rewrite E2 in A4. exists h4. auto.
    - apply then_ok in E2 as (u2 & p3 & E3 & E2). destruct (drop_shorter G p1 i h1 drop _ _ A1 ltac:(rewrite N; discriminate) E3) as (h3 & A3 & _ & L3); [destruct u2; auto|].
      rewrite (look_ok _ _ _ _ A3) in E2. match type of E2 with pool_refresh G i ?b ?f p3 = _ => destruct (refresh_rules G i b f p3 h3 A3) as (h4 & A4 & R4) end.
      rewrite E2 in A4. exists h4. split; auto. right. rewrite R4, <- R1. auto. }
  apply then_ok in E as (u3 & p3 & E3 & E).
  assert (S3 : stays_or_less i h p3).
  { pose proof (less_phase i h never (calc_criterion G y (if kn then None else xs) w kw) p2 S2) as Q. rewrite E3 in Q. apply Q. intros h3 _ _. split; auto.
    apply criterion_stacked. }
  pose proof (less_phase i h never (fun s => use (target_len y) (fun n s => done (with_test (integer n) s)) s) p3 S3) as Q. rewrite E in Q.
  apply Q. intros h3 _ _. split; auto. unfold use. destruct (target_len y); auto.
Qed.

Lemma predict_keeps_frame (G : setup) (X : texts) (p p' : pool) (o : res unit) (i : nat) (xs : option table) (w : option weighting) (h : handle) :
  exec G X (Predict i xs w) p = (o, p') -> ruleset_at p i h ->
  exists h', ruleset_at p' i h' /\ b_rules h' = b_rules h /\ b_frame h' = b_frame h.
Proof.
  intros E A. cbn [exec] in E. unfold pool_predict in E.
  destruct (stays_phase i h never (fun s => let (o, s) := set_predict G xs w s in (rmap (fun _ => tt) o, s)) p h A eq_refl eq_refl eq_refl) as (h2 & A2 & R2 & F2 & _).
  - pose proof (predict_stacked_kept G xs w (view p h)) as Q. destruct (set_predict G xs w (view p h)); auto.
  - rewrite E in A2. eauto.
Qed.

(** ** Another DataFrame *)

Definition renewed (i : nat) (p p1 : pool) : Prop :=
  exists h1, ruleset_at p1 i h1 /\ newer p p1 (b_frame h1) /\ (p_next p <= p_next p1)%nat.

Lemma renewed_phase {A} i p p1 (fresh : ruleset -> bool) (f : ruleset -> res A * ruleset) : renewed i p p1 -> renewed i p (snd (phase i fresh f p1)).
Proof.
  intros (h1 & A1 & N & L). destruct (phase_frame p1 i h1 fresh f A1) as (h2 & A2 & _ & _ & B2 & L2 & L3 & _). exists h2. split; auto. split; [|lia].
  destruct (b_frame h2) as [k2|] eqn:Q; [|left; auto]. right. exists k2. split; auto. unfold frame_of in B2.
  assert (K : k2 = p_next p1 \/ b_frame h1 = Some k2).
  { destruct (s_stacked _); [|discriminate]. destruct (b_frame h1); [destruct (fst (f _)); [destruct (fresh _)|]|]; auto; left; congruence. }
  destruct N as [N|(k & N & K')]; destruct K as [K|K].
  - subst k2. rewrite L3; [lia|auto|congruence].
  - congruence.
  - subst k2. rewrite L3; [lia|auto|]. rewrite N. intros C. injection C as C. lia.
  - assert (k2 = k) by congruence. subst. lia.
Qed.

Lemma fresh_phase {A} i p p1 h1 (fresh : ruleset -> bool) (f : ruleset -> res A * ruleset) a p2 : in_use p1 -> ruleset_at p1 i h1 -> (p_next p <= p_next p1)%nat ->
  fresh (view p1 h1) = true -> phase i fresh f p1 = (Ok a, p2) -> renewed i p p2.
Proof.
  intros U A1 L F E. destruct (phase_frame p1 i h1 fresh f A1) as (h2 & A2 & _ & _ & B2 & L2 & L3 & O). rewrite E in *. cbn [fst snd] in *.
  exists h2. split; auto. split; [|lia]. rewrite F, <- O in B2. unfold frame_of in B2.
  destruct (b_frame h2) as [k2|] eqn:Q; [|left; auto]. right. exists k2. split; auto.
  assert (k2 = p_next p1) by (destruct (s_stacked _), (b_frame h1); congruence). subst k2.
  rewrite L3; [lia|auto|]. intros C. pose proof (U _ _ _ A1 C). lia.
Qed.

Lemma renewed_then {A B} i p (m : res A * pool) (f : A -> pool -> res B * pool) : renewed i p (snd m) -> (forall a p1, renewed i p p1 -> renewed i p (snd (f a p1))) ->
  renewed i p (snd (and_then m f)).
Proof. destruct m as [[a|e] p1]; cbn; auto. Qed.

Lemma renewed_refresh G i p act stacked p1 : renewed i p p1 -> renewed i p (snd (pool_refresh G i act stacked p1)).
Proof. intros R. unfold pool_refresh. apply renewed_then; [apply renewed_phase; auto|]. intros _ p2 R2. apply renewed_phase. auto. Qed.

Lemma renewed_look {A} i p (f : ruleset -> pool -> res A * pool) p1 : renewed i p p1 -> (forall h, renewed i p (snd (f (view p1 h) p1))) -> renewed i p (snd (look i f p1)).
Proof. intros (h1 & A1 & R) F. rewrite (look_ok _ _ _ _ A1). auto. Qed.

Lemma renewed_drop G i p drop p1 : renewed i p p1 -> renewed i p (snd (pool_drop G i drop p1)).
Proof.
  intros R. pose proof R as (h1 & A1 & N & L). unfold pool_drop, method. rewrite (proj2 (get_ok _ _ _) A1). destruct (kept_objects _ _ _ _) as [ls|]; auto.
  destruct (rebuild _ _ _) as [o s']. cbn [snd]. eexists. split; [eapply at_kept; exact A1|]. cbn. split; [left; auto|auto].
Qed.

Lemma phase_in_use {A} i p (fresh : ruleset -> bool) (f : ruleset -> res A * ruleset) : in_use p -> in_use (snd (phase i fresh f p)).
Proof.
  intros U j g k AJ B. unfold phase in *. destruct (get p i) as [h|] eqn:A1; [|eauto]. apply get_ok in A1.
  destruct (f (view p h)) as [o s']. unfold frame_after_step, new_frame in *.
  assert (W : forall ls kk q s, (p_next p <= p_next q)%nat -> p_sets q = p_sets p -> (forall x, kk = Some x -> (x < p_next q)%nat) ->
     ruleset_at (keep_set i ls kk s q) j g -> (k < p_next (keep_set i ls kk s q))%nat).
  { intros ls kk q s L S K J. cbn [keep_set p_next]. destruct (Nat.eq_dec i j) as [->|N].
    - assert (A2 : ruleset_at q j h) by (unfold ruleset_at; rewrite S; exact A1). pose proof (at_kept j ls kk s q h A2) as C. unfold ruleset_at in *.
      rewrite C in J. injection J as <-. cbn in B. auto.
    - unfold ruleset_at, keep_set in J. cbn in J. rewrite replace_other, S in J by auto. pose proof (U _ _ _ J B). lia. }
  destruct (s_stacked s') as [fr|]; [destruct (b_frame h) as [k'|] eqn:BH; [destruct o as [a|e]; [destruct (fresh (view p h))|]|]|]; cbn [snd] in *;
    (eapply W; [..|exact AJ]; cbn; auto; try lia; try discriminate; try (intros x X; injection X as <-; try lia; eapply U; eauto)).
Qed.

(** With new data fit gives the ruleset another DataFrame, or none. *)
Lemma fit_new_frame (G : setup) (X : texts) (p p' : pool) (i : nat) (y : MetModel.target label) (series : bool) (t : table) (force : bool) (kw : keywords) (h h' : handle) :
  exec G X (Fit i y series (Some t) force kw) p = (Ok tt, p') -> in_use p -> ruleset_at p i h -> s_rules (view p h) <> [] -> nrows t <> O ->
  g_stacked G = true \/ s_stack (view p h) = true ->
  ruleset_at p' i h' -> forall k, b_frame h' = Some k -> (p_next p <= k)%nat.
Proof.
  intros E U A NE NR ST A' k K. cut (renewed i p p').
  { intros (h2 & A2 & N & _). assert (h2 = h') as -> by (unfold ruleset_at in *; congruence). destruct N as [N|(k' & N & W)]; [congruence|].
    assert (k' = k) by congruence. lia. }
  cbn [exec] in E. unfold pool_fit in E. rewrite (look_ok _ _ _ _ A) in E.
  destruct (learns (view p h) kw) as [kd|]; [|discriminate]. cbn [no_rows] in E. rewrite (proj2 (Nat.eqb_neq (nrows t) 0) NR) in E.
  destruct (s_rules (view p h)) as [|r l]; [congruence|]. cbn [given negb] in E. rewrite andb_false_r in E. cbv zeta in E.
  apply then_ok in E as (drop & p1 & E1 & E).
  assert (Train : forall p2, renewed i p p2 -> renewed i p (snd (phase i never (fun s => use (target_len y) (fun n s => done (with_train (integer n) s)) s) p2)))
    by (intros p2; apply renewed_phase).
  destruct (g_stacked G) eqn:GS.
  - assert (R1 : renewed i p p1).
    { unfold pool_fit_rules in E1. rewrite GS, (look_ok _ _ _ _ A) in E1. apply then_ok in E1 as (u & p2 & E2 & E1).
      assert (R2 : renewed i p p2) by (eapply fresh_phase; [exact U|exact A|auto| |exact E2]; reflexivity).
      match type of E1 with phase i never ?g p2 = _ => pose proof (renewed_phase i p p2 never g R2) as Q end. rewrite E1 in Q. exact Q. }
    match type of E with ?m = _ => assert (Q : renewed i p (snd m)) end; [|rewrite E in Q; exact Q].
    apply renewed_look; auto. intros h1. apply renewed_then; [|intros _ p2 R2; auto].
    destruct (numbers_rules _ _); auto. apply renewed_then; [apply renewed_drop; auto|]. intros _ p2 R2. apply renewed_refresh. auto.
  - destruct ST as [ST|ST]; [discriminate|].
    unfold pool_fit_rules in E1. rewrite GS in E1.
    destruct (phase_frame p i h never (fit_rules G kd y series (Some t) force kw) A) as (h1 & A1 & R1 & T1 & B1 & L1 & _ & _). rewrite E1 in A1, L1. cbn [snd] in *.
    assert (U1 : in_use p1) by (pose proof (phase_in_use i p never (fit_rules G kd y series (Some t) force kw) U) as Q; rewrite E1 in Q; exact Q).
    assert (ST1 : s_stack (view p1 h1) = true).
    { cbn [view with_rules with_stacked s_stack]. rewrite T1. destruct (fit_alone_attributes G kd y series (Some t) force kw (view p h) GS) as (_ & Q & _). congruence. }
    rewrite (look_ok _ _ _ _ A1) in E. apply then_ok in E as (u & p2 & E2 & E).
    assert (R2 : renewed i p p2).
    { destruct (numbers_rules (s_rules (view p1 h1)) drop) as [|d ds] eqn:N.
      - cbn [given] in E2. rewrite orb_true_r in E2. unfold pool_refresh in E2. apply then_ok in E2 as (u2 & p3 & E3 & E2).
        destruct (phase_frame p1 i h1 never (fun s => compute_self_activation None (with_activation None s)) A1) as (h3 & A3 & _ & T3 & _ & L3 & _ & _).
        pose proof (phase_in_use i p1 never (fun s => compute_self_activation None (with_activation None s)) U1) as U3.
        rewrite E3 in A3, L3, U3. cbn [snd] in *. eapply (fresh_phase i p p3 h3); [exact U3|exact A3|lia| |exact E2].
        cbv beta. rewrite orb_true_r, andb_true_r. cbn [view with_rules with_stacked s_stack]. rewrite T3.
        destruct (self_attributes None (with_activation None (view p1 h1))) as (_ & Q). rewrite Q. exact ST1.
      - apply then_ok in E2 as (u2 & p3 & E3 & E2). destruct (drop_shorter G p1 i h1 drop _ _ A1 ltac:(rewrite N; discriminate) E3) as (h3 & A3 & B3 & _); [destruct u2; auto|].
        assert (R3 : renewed i p p3).
        { exists h3. split; auto. split; [left; auto|]. unfold pool_drop, method in E3. rewrite (proj2 (get_ok _ _ _) A1) in E3.
          destruct (kept_objects _ _ _ _) in E3; [|discriminate]. destruct (rebuild _ _ _) in E3. injection E3 as _ <-. cbn. lia. }
        pose proof (renewed_refresh G i p true (fun _ => true) p3 R3) as Q. rewrite E2 in Q. exact Q. }
    specialize (Train p2 R2). rewrite E in Train. exact Train.
Qed.

(** So does eval that keeps the new activations. *)
Lemma eval_new_frame (G : setup) (X : texts) (p p' : pool) (i : nat) (y : MetModel.target label) (t : table) (keep_new : bool) (w : option weighting) (force : bool)
    (kw : keywords) (h h' : handle) :
  exec G X (Eval i y (Some t) keep_new w force kw) p = (Ok tt, p') -> in_use p -> ruleset_at p i h -> s_rules (view p h) <> [] -> nrows t <> O ->
  keep_new = true \/ (exists r, In r (s_rules (view p h)) /\ r_fitted r = false) ->
  g_stacked G = true \/ s_stack (view p h) = true ->
  ruleset_at p' i h' -> forall k, b_frame h' = Some k -> (p_next p <= k)%nat.
Proof.
  intros E U A NE NR KN ST A' k K. cut (renewed i p p').
  { intros (h2 & A2 & N & _). assert (h2 = h') as -> by (unfold ruleset_at in *; congruence). destruct N as [N|(k' & N & W)]; [congruence|].
    assert (k' = k) by congruence. lia. }
  cbn [exec] in E. unfold pool_eval in E. rewrite (look_ok _ _ _ _ A) in E.
  destruct (learns (view p h) kw) as [kd|]; [|discriminate]. cbn [no_rows] in E. rewrite (proj2 (Nat.eqb_neq (nrows t) 0) NR) in E.
  destruct (s_rules (view p h)) as [|r l] eqn:RL; [congruence|]. cbn [given negb] in E. rewrite andb_false_r in E. cbv zeta in E.
  assert (KN' : keep_new || negb (forallb r_fitted (r :: l)) = true).
  { destruct KN as [->|(q & Q1 & Q2)]; auto. apply orb_true_iff. right. apply negb_true_iff. destruct (forallb r_fitted (r :: l)) eqn:F; auto.
    rewrite (proj1 (forallb_forall _ _) F q Q1) in Q2. discriminate. }
  rewrite KN' in E. cbn [andb] in E.
  apply then_ok in E as (drop & p1 & E1 & E).
  destruct (g_stacked G) eqn:GS.
  - assert (R1 : renewed i p p1).
    { unfold pool_eval_rules in E1. rewrite GS, (look_ok _ _ _ _ A) in E1. apply then_ok in E1 as (u & p2 & E2 & E1).
      assert (R2 : renewed i p p2) by (eapply fresh_phase; [exact U|exact A|auto| |exact E2]; reflexivity).
      match type of E1 with phase i never ?g p2 = _ => pose proof (renewed_phase i p p2 never g R2) as Q end. rewrite E1 in Q. exact Q. }
    match type of E with ?m = _ => assert (Q : renewed i p (snd m)) end; [|rewrite E in Q; exact Q].
    apply renewed_look; auto. intros h1. apply renewed_then.
    + destruct (numbers_rules _ _); auto. apply renewed_then; [apply renewed_drop; auto|]. intros _ p2 R2. apply renewed_look; auto. intros h2. apply renewed_refresh. auto.
    + intros _ p2 R2. apply renewed_then; [apply renewed_phase; auto|]. intros _ p3 R3. apply renewed_phase. auto.
  - destruct ST as [ST|ST]; [discriminate|].
    unfold pool_eval_rules in E1. rewrite GS in E1.
    destruct (phase_frame p i h never (eval_rules G kd y (Some t) true force kw) A) as (h1 & A1 & R1 & T1 & B1 & L1 & _ & _). rewrite E1 in A1, L1. cbn [snd] in *.
    assert (U1 : in_use p1) by (pose proof (phase_in_use i p never (eval_rules G kd y (Some t) true force kw) U) as Q; rewrite E1 in Q; exact Q).
    assert (ST1 : s_stack (view p1 h1) = true).
    { cbn [view with_rules with_stacked s_stack]. rewrite T1. destruct (eval_alone_attributes G kd y (Some t) true force kw (view p h) GS) as (_ & Q & _). congruence. }
    rewrite (look_ok _ _ _ _ A1) in E. apply then_ok in E as (u & p2 & E2 & E).
    assert (R2 : renewed i p p2).
    { destruct (numbers_rules (s_rules (view p1 h1)) drop) as [|d ds] eqn:N.
      - rewrite orb_true_r in E2. unfold pool_refresh in E2. apply then_ok in E2 as (u2 & p3 & E3 & E2).
        destruct (phase_frame p1 i h1 never (fun s => compute_self_activation None (with_activation None s)) A1) as (h3 & A3 & _ & T3 & _ & L3 & _ & _).
        pose proof (phase_in_use i p1 never (fun s => compute_self_activation None (with_activation None s)) U1) as U3.
        rewrite E3 in A3, L3, U3. cbn [snd] in *. eapply (fresh_phase i p p3 h3); [exact U3|exact A3|lia| |exact E2].
        cbv beta. replace (match s_act (view p3 h3) with Some _ => true | None => true end) with true by (destruct (s_act (view p3 h3)); auto).
        rewrite andb_true_r. cbn [view with_rules with_stacked s_stack]. rewrite T3.
        destruct (self_attributes None (with_activation None (view p1 h1))) as (_ & Q). rewrite Q. exact ST1.
      - apply then_ok in E2 as (u2 & p3 & E3 & E2). destruct (drop_shorter G p1 i h1 drop _ _ A1 ltac:(rewrite N; discriminate) E3) as (h3 & A3 & B3 & _); [destruct u2; auto|].
        assert (R3 : renewed i p p3).
        { exists h3. split; auto. split; [left; auto|]. unfold pool_drop, method in E3. rewrite (proj2 (get_ok _ _ _) A1) in E3.
          destruct (kept_objects _ _ _ _) in E3; [|discriminate]. destruct (rebuild _ _ _) in E3. injection E3 as _ <-. cbn. lia. }
        match type of E2 with ?m = _ => assert (Q : renewed i p (snd m)) end; [|rewrite E2 in Q; exact Q].
        apply renewed_look; auto. intros h4. apply renewed_refresh. auto. }
    match type of E with ?m = _ => assert (Q : renewed i p (snd m)) end; [|rewrite E in Q; exact Q].
    apply renewed_then; [apply renewed_phase; auto|]. intros _ p3 R3. apply renewed_phase. auto.
Qed.

From Coq Require Import List ZArith QArith Bool String Lia.
From Coq Require Import List.
From Verif Require Import Base Num CondModel ThrModel MetModel RuleModel PredModel SetModel SetSpec SetBase SetAdd SetEq FitModel SerialModel SerialSave PoolModel PoolSpec PoolBase PoolStep PoolLearn PoolProofs PoolMore.
Import ListNotations.
Open Scope string_scope.
Open Scope list_scope.
Open Scope Z_scope.

Lemma put_all_value {A} (F : nat -> A -> Prop) : (forall l x y, F l x -> F l y -> x = y) ->
  forall ls xs f, Forall2 F ls xs -> map (put_all ls xs f) ls = xs.
Proof.
  intros Fun ls xs f H.
  assert (W : forall k, In k ls -> F k (put_all ls xs f k)).
  { induction H as [|l x ls xs H1 H2 IH]; intros k K; [destruct K|]. cbn. unfold put_at.
    destruct (Nat.eqb_spec k l); [subst; auto|]. apply IH. destruct K; congruence. }
  revert W. generalize (put_all ls xs f) as g. intros g. induction H as [|l x ls xs H1 H2 IH]; intros W; cbn; auto. f_equal.
  - eapply Fun; [apply W; left; auto|auto].
  - apply IH. intros k K. apply W. right; auto.
Qed.

Lemma new_rules_cases G l compute stacking s : new_set G (Some (map ERule l)) compute stacking = Ok s ->
  s_rules s = l \/ Forall2 (fun r r' => renumber G r = Ok r') l (s_rules s).
Proof.
  intros H. destruct (g_indexes G) eqn:GI; [left; eapply new_set_same; eauto|right].
  unfold new_set in H. match type of H with (let (o, s) := ?m in _) = _ => destruct m as [[[]|] s0] eqn:M end; [|discriminate].
  cbn [rbind] in H. assert (s0 = s) as ->.
  { destruct (g_check G); [|congruence]. destruct (check_duplicated_rules _ _ _) as [[]|]; [|discriminate]. cbn in H. congruence. }
  clear H. apply chain_ok in M as (s1 & M1 & M). apply chain_ok in M as (s2 & M2 & M).
  apply chain_ok in M as (s3 & M3 & M). apply chain_ok in M as (s4 & M4 & M).
  apply append_all_extends in M1 as (X & _). destruct X as [R _ _ _ _ _ _ _]. rewrite the_rules_map in R. cbn in R.
  assert (R2 : s_rules s2 = l).
  { destruct compute; [apply use_ok in M2 as (o & _ & E); injection E as <-|injection M2 as <-]; auto. }
  assert (R3 : s_rules s3 = l).
  { destruct stacking; [apply use_ok in M3 as (o & _ & E); injection E as <-|injection M3 as <-]; auto. }
  apply use_ok in M4 as (o & _ & E). injection E as <-. unfold init_features_indexes in M. rewrite GI in M.
  apply use_ok in M as (m & _ & M). apply use_ok in M as (rules & M & E). injection E as <-. cbn in *. rewrite R3 in M.
  apply rseq_map_ok in M. auto.
Qed.

(** The new rules are those of the ruleset. *)
Lemma new_rules_view G (heap : nat -> rule) ls compute stacking s :
  new_set G (Some (map ERule (map heap ls))) compute stacking = Ok s -> map (put_all ls (s_rules s) heap) ls = s_rules s.
Proof.
  intros H. apply new_rules_cases in H as [H|H].
  - rewrite H. apply map_ext. intros k. apply put_all_id.
  - apply put_all_value with (F := fun l r => renumber G (heap l) = Ok r); [congruence|].
    revert H. generalize (s_rules s). induction ls as [|l ls IH]; cbn; intros rules H; inversion H; subst; constructor; auto.
Qed.

Lemma pool_new_view G ls compute stacking p o p' : let m := new_set G (Some (map ERule (map (p_rules p) ls))) compute stacking in
  pool_new ls m p = (o, p') ->
  (forall e, m = Err e -> o = Err e /\ p' = p) /\
  (forall s, m = Ok s -> o = Ok tt /\ exists h, p_sets p' = p_sets p ++ [h] /\ b_rules h = ls /\ view p' h = s).
Proof.
  intros m E. subst m. unfold pool_new in E. destruct (new_set _ _ _ _) as [s|e] eqn:N.
  - split; [discriminate|]. intros s' Q. injection Q as <-. pose proof (new_rules_view _ _ _ _ _ _ N) as R.
    destruct (fresh_cases s (keep_rules ls (s_rules s) p)) as [(S & F)|(f & S & F)]; rewrite F in E; injection E as <- <-; split; auto;
      eexists; (split; [reflexivity|split; [reflexivity|apply view_of; cbn; auto]]).
    rewrite put_same. auto.
  - injection E as <- <-. split; [|discriminate]. intros e' Q. injection Q as <-. auto.
Qed.

Lemma pick_map (heap : nat -> rule) ls : forall idx, rmap (map heap) (rseq (map (py_index ls) idx)) = rseq (map (py_index (map heap ls)) idx).
Proof.
  assert (At : forall n, rmap heap (at_pos ls n) = at_pos (map heap ls) n).
  { intros n. unfold at_pos. rewrite nth_error_map. destruct (nth_error ls n); auto. }
  assert (P : forall i, rmap heap (py_index ls i) = py_index (map heap ls) i).
  { intros i. unfold py_index. rewrite map_length. destruct (_ && _); auto. destruct (_ && _); auto. }
  induction idx as [|i idx IH]; cbn; auto. rewrite <- P, <- IH. destruct (py_index ls i); cbn; auto.
  destruct (rseq (map (py_index ls) idx)); auto.
Qed.

(** A new ruleset is the one that its rules give. *)
Lemma makes (G : setup) (X : texts) (c : command) (p p' : pool) (o : res unit) (m : res ruleset) :
  exec G X c p = (o, p') -> made_of G p c m ->
  (forall e, m = Err e -> o = Err e /\ p' = p) /\
  (forall s, m = Ok s -> o = Ok tt /\ exists h, p_sets p' = p_sets p ++ [h] /\ view p' h = s).
Proof.
  assert (Q : forall ls compute stacking o p', let m := new_set G (Some (map ERule (map (p_rules p) ls))) compute stacking in
    pool_new ls m p = (o, p') -> (forall e, m = Err e -> o = Err e /\ p' = p) /\
    (forall s, m = Ok s -> o = Ok tt /\ exists h, p_sets p' = p_sets p ++ [h] /\ view p' h = s)).
  { intros ls compute stacking o1 p1 m1 E. subst m1. destruct (pool_new_view _ _ _ _ _ _ _ E) as (Q1 & Q2). split; auto.
    intros s S. destruct (Q2 s S) as (Q3 & h & Q4 & _ & Q5). eauto. }
  intros E M. destruct M as [stack|ls compute stack|i l h A|i j h g A B|i a b c h A]; cbn [exec] in E.
  - split; [discriminate|]. intros s W. injection W as <-. unfold pool_empty in E.
    assert (N : new_set G None true stack = Ok (empty_set stack)) by (unfold new_set; cbn; destruct (g_check G); reflexivity).
    rewrite N in E. unfold pool_new, fresh_frame in E. cbn in E. injection E as <- <-. split; auto.
    eexists. split; [reflexivity|]. apply view_of; auto.
  - eapply Q. exact E.
  - unfold pool_plus_rule, method in E. apply get_ok in A. rewrite A in E. unfold plus_rule in *.
    cbn [s_rules view with_rules with_stacked] in *.
    replace (map (p_rules p) (b_rules h) ++ [p_rules p l]) with (map (p_rules p) (b_rules h ++ [l])) in * by (rewrite map_app; auto).
    eapply Q. exact E.
  - unfold pool_plus_set, method in E. apply get_ok in A, B. rewrite A, B in E. unfold plus_set in *.
    cbn [s_rules view with_rules with_stacked] in *. rewrite <- map_app in *.
    pose proof (distinct_map (g_hash G) (p_rules p) (b_rules h ++ b_rules g) []) as D. cbn [List.length skipn] in D. fold (rule_set (g_hash G) (map (p_rules p) (b_rules h ++ b_rules g))) in D.
    destruct (distinct_rules _ _ _ _) as [ls|e] in D, E; destruct (rule_set _ _) as [m|e'] in D, E |- *; cbn [rmap rbind] in *; try discriminate.
    + injection D as D. replace (map (fun x => ERule (snd x)) m) with (map ERule (map (p_rules p) ls)) in * by (rewrite D, map_map; auto).
      eapply Q. exact E.
    + injection D as <-. injection E as <- <-. split; [|discriminate]. intros e2 W. injection W as <-. auto.
  - unfold pool_slice, method in E. apply get_ok in A. rewrite A in E. unfold getitem_slice in *.
    cbn [s_rules view with_rules with_stacked] in *. rewrite map_length in *.
    destruct (slice_range a b c _) as [idx|e] in E |- *; cbn [rbind] in *.
    + rewrite <- (pick_map (p_rules p) (b_rules h) idx) in *.
      destruct (rseq (map (py_index (b_rules h)) idx)) as [ls|e]; cbn [rmap rbind] in *; [eapply Q; exact E|].
      injection E as <- <-. split; [|discriminate]. intros e2 W. injection W as <-. auto.
    + injection E as <- <-. split; [|discriminate]. intros e2 W. injection W as <-. auto.
Qed.

(** ** Targets *)

Lemma add_set_stacked u s o s' : add_set u s = (o, s') ->
  (exists e, o = Err e /\ s_stacked s' = s_stacked s) \/
  o = Ok tt /\ (s_stack s && set_available u = false /\ s_stacked s' = s_stacked s \/
                s_stack s && set_available u = true /\ (s_stacked s = None -> s_stacked s' = s_stacked u)).
Proof.
  assert (T : forall s1, steady s s1 ->
    chain (add_features (Ok (Some (s_idx u))) (Ok (Some (s_names u))) (with_rules (s_rules s1 ++ s_rules u) s1)) (fun s =>
    chain (if s_compute s then update_activation (set_available u) (set_vector u) (s_act u) s else done s) (fun s =>
    if s_stack s then update_stacked_set u s else done s)) = (o, s') ->
    (exists e, o = Err e /\ s_stacked s' = s_stacked s) \/
    o = Ok tt /\ (s_stack s && set_available u = false /\ s_stacked s' = s_stacked s \/
                s_stack s && set_available u = true /\ (s_stacked s = None -> s_stacked s' = s_stacked u))).
  { intros s1 (D1 & D2) E. apply middle_steady in E as [((e & ->) & (D3 & D4))|(s2 & (D3 & D4) & E)]; cbn [s_stacked s_stack with_rules] in D3, D4.
    - left. exists e. split; congruence.
    - replace (s_stack s2) with (s_stack s) in E by congruence. rewrite D1 in D3.
      destruct (s_stack s); [|injection E as <- <-; auto].
      unfold update_stacked_set in E. destruct (set_available u); [|injection E as <- <-; auto]. cbn [andb].
      rewrite D3 in E. destruct (s_stacked s) as [f|] eqn:F.
      + destruct (s_stacked u) as [g|].
        * unfold use in E. destruct (concat_columns f g) as [k|e] eqn:C; injection E as <- <-.
          -- right. split; auto. right. split; auto. discriminate.
          -- left. exists e. auto.
        * injection E as <- <-. right. split; auto. right. split; auto. discriminate.
      + injection E as <- <-. right. split; auto. }
  intros E. unfold add_set in E.
  destruct (s_type s) as [t|] eqn:T1, (s_type u) as [t'|] eqn:T2; cbn [chain done] in E.
  - destruct (kind_eqb t t'); cbn [chain done] in E; [apply (T s); [split|]; auto|]. injection E as <- <-. left. exists EType. auto.
  - apply (T s); [split|]; auto.
  - apply (T (with_type (Some t') s)); [split|]; auto.
  - apply (T s); [split|]; auto.
Qed.

(** A rule never takes the DataFrame away. *)
Lemma add_rule_stacked G r s f : s_stacked s = Some f -> exists f', s_stacked (snd (add_rule G r s)) = Some f'.
Proof.
  intros F. destruct (add_rule G r s) as [o s'] eqn:E. cbn [snd]. unfold add_rule in E.
  assert (T : forall s1, steady s s1 ->
    chain (add_features (rule_indexes r) (rule_names r) (with_rules (s_rules s1 ++ [r]) s1)) (fun s =>
    chain (if s_compute s then update_activation (activation_available r) (activation_vector r) (r_act r) s else done s) (fun s =>
    if s_stack s then update_stacked_rule G r s else done s)) = (o, s') -> exists f', s_stacked s' = Some f').
  { intros s1 (D1 & D2) E1. apply middle_steady in E1 as [(_ & (D3 & D4))|(s2 & (D3 & D4) & E1)]; cbn [s_stacked s_stack with_rules] in D3, D4.
    - exists f. congruence.
    - destruct (s_stack s2); [|injection E1 as _ <-; exists f; congruence]. unfold update_stacked_rule, use in E1.
      destruct (activation_available r); [|injection E1 as _ <-; exists f; congruence].
      destruct (rbind _ _) as [f'|]; injection E1 as _ <-; [exists f'; auto|exists f; congruence]. }
  destruct (s_type s) as [t|]; cbn [chain done] in E.
  - destruct (isinstance (r_kind r) t); cbn [chain done] in E; [apply (T s); [split|]; auto|]. injection E as _ <-. eauto.
  - apply (T (with_type (Some (r_kind r)) s)); [split|]; auto.
Qed.

Lemma appended_view i h r s' l p : ruleset_at p i h -> p_rules p l = r ->
  s_rules s' = s_rules (view p h) \/ s_rules s' = s_rules (view p h) ++ [r] ->
  exists h', ruleset_at (appended i h (view p h) s' l p) i h' /\ view (appended i h (view p h) s' l p) h' = s'.
Proof.
  intros A L R. unfold appended. cbv zeta. set (ls := if (_ =? _)%nat then b_rules h else b_rules h ++ [l]).
  assert (V : map (p_rules p) ls = s_rules s').
  { subst ls. cbn [s_rules view with_rules with_stacked] in *. destruct (Nat.eqb_spec (List.length (s_rules s')) (List.length (map (p_rules p) (b_rules h)))) as [Q|Q].
    - destruct R as [R|R]; auto. rewrite R, app_length in Q. cbn in Q. lia.
    - destruct R as [R|R]; [congruence|]. rewrite R, map_app. cbn. rewrite L. auto. }
  destruct (s_stacked s') as [f|] eqn:S; [destruct (b_frame h) as [k|] eqn:B|]; cbn [new_frame].
  - eexists. split; [eapply at_kept; exact A|]. apply view_of; cbn; auto. rewrite put_same. auto.
  - eexists. split; [eapply at_kept; exact A|]. apply view_of; cbn; auto. rewrite put_same. auto.
  - eexists. split; [eapply at_kept; exact A|]. apply view_of; cbn; auto.
Qed.

Lemma append_rules G r u s : s_rules (snd (append G (ERule r) u s)) = s_rules s \/ s_rules (snd (append G (ERule r) u s)) = s_rules s ++ [r].
Proof.
  unfold append. set (s1 := if u then _ else _). assert (R : s_rules s1 = s_rules s) by (subst s1; destruct u; auto).
  destruct (add_rule_any G r s1) as [(t & _ & _ & E)|(_ & K & _)].
  - rewrite E. cbn. auto.
  - destruct (add_rule G r s1) as [[[]|] s2]; cbn in *; rewrite <- R; auto.
Qed.

Lemma to_df_length X a s : List.length (s_rules (snd (to_df X None a s))) = List.length (s_rules s) /\
  s_stacked (snd (to_df X None a s)) = s_stacked s.
Proof.
  unfold to_df. destruct (s_rules s) as [|r0 l0] eqn:L; [cbn [snd]; rewrite L; auto|]. rewrite <- L. destruct (s_type s) as [k|]; [|auto]. cbv zeta.
  unfold use at 1. destruct (rseq _) as [rows|] eqn:R; [|auto].
  assert (LR : List.length (map fst rows) = List.length (s_rules s)).
  { apply rseq_map_ok in R. rewrite map_length. transitivity (List.length (combine (seq 0 (List.length (s_rules s))) (s_rules s))).
    - symmetry. clear - R. induction R; cbn; auto.
    - rewrite combine_length, seq_length. lia. }
  destruct (rename_all _ _ LR) as (rules & E & F). unfold use. rewrite E.
  assert (LL : List.length rules = List.length (s_rules s)) by (clear - F; symmetry; induction F; cbn; auto).
  destruct (negb a); cbn [snd s_rules with_rules s_stacked]; auto.
  destruct (ruleset_coverage (with_rules rules s)); cbn [snd s_rules with_rules s_stacked]; auto.
Qed.

(** A command does to its target what the method does. *)
Lemma acts (G : setup) (X : texts) (c : command) (p p' : pool) (o o1 : res unit) (i : nat) (h : handle) (s' : ruleset) :
  exec G X c p = (o, p') -> target c i -> ruleset_at p i h -> method_of G X p c (view p h) (o1, s') ->
  (works_on c i -> NoDup (b_rules h)) ->
  o = o1 /\ exists h', ruleset_at p' i h' /\ view p' h' = s'.
Proof.
  intros E T A M D. destruct T; cbn [exec] in E; pose proof (proj2 (get_ok _ _ _) A) as A'.
  - (* AddRule *) inversion M; subst. match goal with W : add_rule _ _ _ = _ |- _ => rename W into Q end. unfold pool_add_rule, method in E. rewrite A', Q in E. injection E as <- <-.
    split; auto. apply (appended_view i h (p_rules p l)); auto.
    destruct (add_rule_any G (p_rules p l) (view p h)) as [(t & _ & _ & W)|(_ & K & _)]; rewrite Q in *.
    + injection W as _ ->. auto.
    + right. exact K.
  - (* Append *) inversion M; subst. match goal with W : _ = (o1, s') |- _ => rename W into Q; change (append G (ERule (p_rules p l)) u (view p h) = (o1, s')) in Q end. unfold pool_append, method in E. rewrite A', Q in E. injection E as <- <-.
    split; auto. apply (appended_view i h (p_rules p l)); auto. pose proof (append_rules G (p_rules p l) u (view p h)) as R. rewrite Q in R. exact R.
  - (* AddSet *) inversion M; subst. match goal with W : add_set (view p ?x) _ = _, V : ruleset_at p j _ |- _ => rename x into g; rename W into Q; rename V into B end. unfold pool_add_set, method in E. pose proof (proj2 (get_ok _ _ _) B) as B'.
    rewrite A', B', Q in E. cbv zeta in E. set (ls := if (_ =? _)%nat then b_rules h else b_rules h ++ b_rules g) in E.
    assert (V : map (p_rules p) ls = s_rules s').
    { subst ls. destruct (add_set_any (view p g) (view p h)) as [(t & t' & _ & _ & _ & W)|(_ & K & _)]; rewrite Q in *.
      - injection W as _ ->. rewrite Nat.eqb_refl. reflexivity.
      - cbn [snd] in K. cbn [s_rules view with_rules with_stacked] in *. rewrite K. destruct (Nat.eqb_spec (List.length (map (p_rules p) (b_rules h) ++ map (p_rules p) (b_rules g))) (List.length (map (p_rules p) (b_rules h)))) as [L|L].
        + rewrite app_length in L. destruct (b_rules g); [cbn; rewrite app_nil_r; auto|cbn in L; lia].
        + apply map_app. }
    destruct (add_set_stacked _ _ _ _ Q) as [(e & -> & S)|(-> & [(C & S)|(C & S)])].
    + injection E as <- <-. split; auto. eexists. split; [eapply at_kept; exact A|]. apply view_of; cbn; auto.
    + rewrite C in E. injection E as <- <-. split; auto. eexists. split; [eapply at_kept; exact A|]. apply view_of; cbn; auto.
    + rewrite C in E. destruct (b_frame h) as [k|] eqn:BF.
      * destruct (fresh_cases s' p) as [(N & F)|(f & N & F)]; rewrite F in E; injection E as <- <-; split; auto;
          (eexists; split; [eapply at_kept; exact A|]; apply view_of; cbn; auto). rewrite put_same. auto.
      * injection E as <- <-. split; auto. eexists. split; [eapply at_kept; exact A|]. apply view_of; cbn; auto. symmetry. apply S. apply stacked_none; auto.
  - (* SetRules *) inversion M; subst. match goal with W : set_rules _ _ _ = _ |- _ => rename W into Q end. unfold pool_set_rules, method in E. rewrite A', Q in E.
    unfold set_rules, use in Q. destruct (new_set _ _ _ _) as [t|e] eqn:N in Q.
    + injection Q as <- Q. pose proof (new_rules_view _ _ _ _ _ _ N) as R.
      assert (R' : s_rules s' = s_rules t) by (subst s'; auto). rewrite <- R' in R.
      destruct (fresh_cases s' (keep_rules ls (s_rules s') p)) as [(S & F)|(f & S & F)]; rewrite F in E; injection E as <- <-; split; auto;
        (eexists; split; [eapply at_kept; exact A|]; apply view_of; cbn; auto). rewrite put_same. auto.
    + injection Q as <- <-. injection E as <- <-. split; auto. exists h. auto.
  - (* Calc *) inversion M; subst. match goal with W : set_calc_activation _ _ _ = _ |- _ => rename W into Q end. unfold pool_calc, method in E. rewrite A', Q in E. cbv zeta in E.
    assert (V : map (put_all (b_rules h) (s_rules s') (p_rules p)) (b_rules h) = s_rules s').
    { apply put_all_same; [apply D; constructor|]. pose proof (set_calc_length G xs (view p h)) as L. rewrite Q in L. cbn in L. rewrite L, map_length. auto. }
    destruct (s_stacked s') as [f|] eqn:S.
    + assert (K : s_stacked (view p h) = Some f -> option_map (p_frames p) (b_frame h) = Some f) by auto.
      destruct (set_calc_same _ _ _ _ _ Q) as [W|[W|(-> & W1 & W2)]]; [| congruence |].
      * rewrite S in W. symmetry in W. apply K in W. destruct o1 as [[]|e].
        -- destruct (s_stack (view p h) && negb (nrows xs =? 0)%nat); [cbn in E|]; injection E as <- <-; split; auto;
             (eexists; split; [eapply at_kept; exact A|]; apply view_of; cbn; auto); [rewrite put_same; auto|congruence].
        -- injection E as <- <-. split; auto. eexists; split; [eapply at_kept; exact A|]; apply view_of; cbn; auto. congruence.
      * rewrite W1 in E. destruct (Nat.eqb_spec (nrows xs) 0) as [Z|Z]; [contradiction|]. cbn in E. injection E as <- <-. split; auto.
        eexists; split; [eapply at_kept; exact A|]; apply view_of; cbn; auto. rewrite put_same; auto.
    + injection E as <- <-. split; auto. eexists; split; [eapply at_kept; exact A|]; apply view_of; cbn; auto.
  - (* DelActivations *) inversion M; subst. unfold pool_del_activations, pool_change, method in E. rewrite A' in E. injection E as <- <-. split; auto.
    eexists; split; [eapply at_kept; exact A|]. apply view_of; cbn; auto. apply put_all_same; [apply D; constructor|]. rewrite !map_length. auto.
  - (* DelActivation *) inversion M; subst. unfold pool_del_activation, method in E. rewrite A' in E. injection E as <- <-. split; auto.
    eexists; split; [eapply at_kept; exact A|]. unfold del_set_activation. destruct (s_act (view p h)); apply view_of; cbn; auto.
  - (* DelStacked *) inversion M; subst. unfold pool_del_stacked, method in E. rewrite A' in E. injection E as <- <-. split; auto.
    eexists; split; [eapply at_kept; exact A|]. apply view_of; cbn; auto.
  - (* ToDf *) inversion M; subst. match goal with W : to_df _ _ _ _ = _ |- _ => rename W into Q end. unfold pool_to_df, pool_change, method in E. rewrite A', Q in E.
    injection E as <- <-. split; auto. pose proof (to_df_length X a (view p h)) as (L & S). rewrite Q in L, S. cbn [snd] in L, S.
    eexists; split; [eapply at_kept; exact A|]. apply view_of; cbn; auto. apply put_all_same; [apply D; constructor|].
    rewrite L. cbn. apply map_length.
  - (* Fit *) inversion M; subst. match goal with W : set_fit _ _ _ _ _ _ _ = _ |- _ => rename W into Q end.
    destruct (tracks_fit G p i h y series xs force kw A) as (h' & P & V). rewrite E in P, V. cbn [fst snd] in P, V.
    destruct V as (V1 & V2 & _); [apply D; constructor|]. rewrite Q in V1, V2. split; [exact V1|]. exists h'. split; [eapply phased_at; eauto|exact V2].
  - (* Eval *) inversion M; subst. match goal with W : set_eval _ _ _ _ _ _ _ _ = _ |- _ => rename W into Q end.
    destruct (tracks_eval G p i h y xs keep_new w force kw A) as (h' & P & V). rewrite E in P, V. cbn [fst snd] in P, V.
    destruct V as (V1 & V2 & _); [apply D; constructor|]. rewrite Q in V1, V2. split; [exact V1|]. exists h'. split; [eapply phased_at; eauto|exact V2].
  - (* Sort *) inversion M; subst. match goal with W : set_sort _ _ _ _ = _ |- _ => rename W into Q end.
    destruct (strictly_sort G p i h criterion reverse A) as (h' & P & V1 & V2 & _). rewrite E in P, V1, V2. cbn [fst snd] in P, V1, V2.
    rewrite Q in V1, V2. split; [exact V1|]. exists h'. split; [eapply phased_at; eauto|exact V2].
  - (* Predict *) inversion M; subst. match goal with W : set_predict _ _ _ _ = _ |- _ => rename W into Q end.
    destruct (tracks_predict G p i h xs w A) as (h' & P & V). rewrite E in P, V. cbn [fst snd] in P, V.
    destruct V as (V1 & V2 & _); [apply D; constructor|]. rewrite Q in V1, V2. split; [exact V1|]. exists h'. split; [eapply phased_at; eauto|exact V2].
Qed.

(** ** A common DataFrame *)

(** [+=] with a ruleset that has a DataFrame, when the target stacks and has none:
    the two have one DataFrame, and a rule added to one is a column of the other. *)
Lemma taken (G : setup) (X : texts) (p p' : pool) (i j k : nat) (h g : handle) :
  exec G X (AddSet i j) p = (Ok tt, p') -> i <> j -> ruleset_at p i h -> ruleset_at p j g ->
  s_stack (view p h) = true -> set_available (view p g) = true -> b_frame h = None -> b_frame g = Some k ->
  exists h', ruleset_at p' i h' /\ ruleset_at p' j g /\ b_frame h' = Some k /\ b_frame g = Some k.
Proof.
  intros E N A B S V F K. pose proof (proj2 (get_ok _ _ _) A) as A'. pose proof (proj2 (get_ok _ _ _) B) as B'.
  cbn [exec] in E. unfold pool_add_set, method in E. rewrite A', B' in E.
  destruct (add_set (view p g) (view p h)) as [o s']. cbv zeta in E. rewrite S, V, F in E. cbn [andb] in E.
  destruct o as [[]|e]; [|discriminate]. injection E as <-. eexists. split; [eapply at_kept; exact A|]. split; [|auto].
  unfold ruleset_at, keep_set. cbn. rewrite replace_other; auto.
Qed.

Lemma shared_grows (G : setup) (X : texts) (p p' : pool) (o : res unit) (i j l k : nat) (h g : handle) :
  exec G X (AddRule i l) p = (o, p') -> i <> j -> ruleset_at p i h -> ruleset_at p j g -> b_frame h = Some k -> b_frame g = Some k ->
  ruleset_at p' j g /\
  s_stacked (view p' g) = s_stacked (snd (add_rule G (p_rules p l) (view p h))) /\
  (forall f, s_stacked (view p' g) = f -> view p' g = with_stacked f (view p g)).
Proof.
  intros E N A B F K. pose proof (proj2 (get_ok _ _ _) A) as A'. cbn [exec] in E. unfold pool_add_rule, method in E. rewrite A' in E.
  destruct (add_rule G (p_rules p l) (view p h)) as [o1 s'] eqn:Q. injection E as <- <-.
  assert (V : exists f, s_stacked (view p h) = Some f) by (exists (p_frames p k); apply stacked_some; eauto).
  destruct V as (f0 & V). destruct (add_rule_stacked G (p_rules p l) _ _ V) as (f & S). rewrite Q in S. cbn [snd] in *.
  unfold appended. rewrite S, F. cbn. split; [unfold ruleset_at in *; cbn; rewrite replace_other; auto|].
  rewrite K. cbn. rewrite put_same. split; [auto|]. intros f' <-. unfold view. cbn. rewrite K. cbn. rewrite put_same. reflexivity.
Qed.

From Coq Require Import List ZArith QArith Bool String Lia.
From Coq Require Import List.
From Verif Require Import Base Num CondModel ThrModel MetModel RuleModel PredModel SetModel SetSpec SetBase SetAdd SetEq FitModel SerialModel PoolModel PoolSpec PoolBase PoolStep PoolLearn.
Import ListNotations.
Open Scope string_scope.
Open Scope list_scope.
Open Scope Z_scope.

(** ** The methods *)

Lemma new_does ls made p o p' R : (forall s, made = Ok s -> (forall l, ~ R l -> put_all ls (s_rules s) (p_rules p) l = p_rules p l)) ->
  pool_new ls made p = (o, p') ->
  does p p' None R (fun _ => False) (fun q => b_rules q = ls /\ newer p p' (b_frame q)).
Proof.
  intros HR E. unfold pool_new in E. destruct made as [s|e]; [|injection E as <- <-; apply does_none].
  specialize (HR s eq_refl).
  destruct (fresh_cases s (keep_rules ls (s_rules s) p)) as [(S & F)|(f & S & F)]; rewrite F in E; injection E as <- <-; split.
  - constructor; cbn; auto. intros j h J _. unfold ruleset_at in *. cbn. rewrite nth_error_app1; auto. apply nth_error_Some. congruence.
  - right. eexists. split; [apply after_snoc; reflexivity|]. cbn. split; auto. left; auto.
  - constructor; cbn; auto.
    + intros k K _. apply put_other. lia.
    + intros j h J _. unfold ruleset_at in *. cbn. rewrite nth_error_app1; auto. apply nth_error_Some. congruence.
  - right. eexists. split; [apply after_snoc; reflexivity|]. cbn. split; auto. apply newer_next. auto.
Qed.

Lemma appended_does i h s s' l p R : ruleset_at p i h ->
  does p (appended i h s s' l p) (Some i) R (fun k => b_frame h = Some k)
    (fun q => own p (appended i h s s' l p) h q /\ (b_rules q = b_rules h \/ b_rules q = b_rules h ++ [l])).
Proof.
  intros A. unfold appended. cbv zeta. set (ls := if (_ =? _)%nat then b_rules h else b_rules h ++ [l]).
  assert (L : ls = b_rules h \/ ls = b_rules h ++ [l]) by (subst ls; destruct (_ =? _)%nat; auto).
  destruct (s_stacked s') as [f|]; [destruct (b_frame h) as [k|] eqn:B|]; cbn; split.
  - constructor; cbn; auto.
    + intros k' _ N. apply put_other. congruence.
    + eapply sets_kept; reflexivity.
  - right. eexists. split; [eapply after_replace; [exact A|reflexivity]|]. split; cbn; auto. left. cbn. auto.
  - constructor; cbn; auto.
    + intros k' K _. apply put_other. lia.
    + eapply sets_kept; reflexivity.
  - right. eexists. split; [eapply after_replace; [exact A|reflexivity]|]. split; cbn; auto. right. apply newer_next. auto.
  - constructor; cbn; auto. eapply sets_kept; reflexivity.
  - right. eexists. split; [eapply after_replace; [exact A|reflexivity]|]. split; cbn; auto. right. left. auto.
Qed.

Lemma keep_does i h ls f s ls' rules p (R : nat -> Prop) (Q : handle -> Prop) : ruleset_at p i h -> (forall l, In l ls' -> R l) -> Q (mkHandle ls f s) ->
  does p (keep_set i ls f s (keep_rules ls' rules p)) (Some i) R (fun _ => False) Q.
Proof.
  intros A HR HQ. split.
  - constructor; cbn; auto.
    + intros l N. apply put_all_other. auto.
    + eapply sets_kept; reflexivity.
  - right. eexists. split; [eapply after_replace; [exact A|reflexivity]|exact HQ].
Qed.

Lemma does_weaken p p' t (R F R' F' : nat -> Prop) (Q Q' : handle -> Prop) : does p p' t R F Q -> (forall l, R l -> R' l) -> (forall k, F k -> F' k) ->
  (forall q, Q q -> Q' q) -> does p p' t R' F' Q'.
Proof.
  intros (E & D) HR HF HQ. split.
  - destruct E as [E1 E2 E3 E4]. constructor; auto.
  - destruct D as [D|(q & D1 & D2)]; auto. right. exists q. auto.
Qed.

(** The rules of a new ruleset stay as they are without all_features_indexes. *)
Lemma new_rules G (heap : nat -> rule) ls compute stacking s (R : nat -> Prop) :
  new_set G (Some (map ERule (map heap ls))) compute stacking = Ok s -> (g_indexes G <> [] -> forall l, In l ls -> R l) ->
  forall l, ~ R l -> put_all ls (s_rules s) heap l = heap l.
Proof.
  intros E HR l N. destruct (g_indexes G) eqn:GI.
  - rewrite (new_set_same _ _ _ _ _ GI E). apply put_all_id.
  - apply put_all_other. intros I. apply N. apply HR; auto. discriminate.
Qed.

Definition frame_after (p p' : pool) (t : option nat) (q : handle) : Prop :=
  newer p p' (b_frame q) \/ exists i h, t = Some i /\ ruleset_at p i h /\ b_frame q = b_frame h.

Definition target_of (c : command) : option nat :=
  match c with
  | AddRule i _ | Append i _ _ | AddSet i _ | SetRules i _ | Calc i _ | DelActivations i | DelActivation i | DelStacked i | ToDf i _
  | Fit i _ _ _ _ _ | Eval i _ _ _ _ _ _ | Sort i _ _ | Predict i _ _ => Some i
  | Empty _ | Init _ _ _ | PlusRule _ _ | PlusSet _ _ | Slice _ _ _ _ => None
  end.

Lemma target_iff c i : target c i <-> target_of c = Some i.
Proof.
  split.
  - intros []; auto.
  - destruct c; cbn; intros E; try discriminate; injection E as <-; constructor.
Qed.

Lemma own_frame p p' c i h q : target_of c = Some i -> ruleset_at p i h -> own p p' h q -> frame_after p p' (target_of c) q.
Proof. intros T A [O|N]; [right; exists i, h; auto|left; auto]. Qed.

Lemma distinct_in H heap : forall ls seen ls', distinct_rules H heap ls seen = Ok ls' -> forall l, In l ls' -> In l ls.
Proof.
  induction ls as [|x ls IH]; intros seen ls' E l I; cbn in E.
  - injection E as <-. destruct I.
  - destruct (rule_hash H (heap x)) as [h|]; [|discriminate]. cbn in E. destruct (member H (h, heap x) seen) as [[]|]; [| |discriminate]; cbn in E.
    + right. eapply IH; eauto.
    + destruct (distinct_rules H heap ls _) as [m|] eqn:D; [|discriminate]. cbn in E. injection E as <-. destruct I as [->|I]; [left; auto|].
      right. eapply IH; eauto.
Qed.

Lemma skip_first {A} (a b : list A) : skipn (List.length a) (a ++ b) = b.
Proof. induction a; auto. Qed.

(** The objects of [set(rules)] are those of its rules. *)
Lemma distinct_map H heap : forall ls seen,
  rmap (map heap) (distinct_rules H heap ls seen) = rmap (fun m => map snd (skipn (List.length seen) m))
    (fold_left (fun acc r => rbind acc (fun l => rbind (rule_hash H r) (fun h => rbind (member H (h, r) l) (fun b =>
       if b then Ok l else Ok (l ++ [(h, r)]))))) (map heap ls) (Ok seen)).
Proof.
  assert (Bad : forall ls e, fold_left (fun acc r => rbind acc (fun l => rbind (rule_hash H r) (fun h => rbind (member H (h, r) l) (fun b =>
       if b then Ok l else Ok (l ++ [(h, r)]))))) ls (@Err (list (Z * rule)) e) = Err e).
  { induction ls; intros; cbn; auto. }
  assert (Pre : forall ls seen m, fold_left (fun acc r => rbind acc (fun l => rbind (rule_hash H r) (fun h => rbind (member H (h, r) l) (fun b =>
       if b then Ok l else Ok (l ++ [(h, r)]))))) ls (Ok seen) = Ok m -> exists n, m = seen ++ n).
  { induction ls as [|x ls IH]; intros seen m E; cbn in E.
    - injection E as <-. exists []. rewrite app_nil_r; auto.
    - destruct (rule_hash H x) as [h|]; cbn in E; [|rewrite Bad in E; discriminate].
      destruct (member H (h, x) seen) as [[]|]; cbn in E; [eapply IH; eauto| |rewrite Bad in E; discriminate].
      apply IH in E as (n & ->). exists ((h, x) :: n). rewrite <- app_assoc. auto. }
  induction ls as [|x ls IH]; intros seen; cbn.
  - rewrite skipn_all. auto.
  - destruct (rule_hash H (heap x)) as [h|]; cbn; [|rewrite Bad; auto].
    destruct (member H (h, heap x) seen) as [[]|]; cbn; [apply IH| |rewrite Bad; auto].
    specialize (IH (seen ++ [(h, heap x)])).
    destruct (distinct_rules H heap ls (seen ++ [(h, heap x)])) as [ls'|e]; cbn in *.
    + destruct (fold_left _ _ (Ok (seen ++ [(h, heap x)]))) as [m|] eqn:M; cbn in *; [|discriminate]. injection IH as IH. rewrite IH.
      apply Pre in M as (n & ->). rewrite skip_first, <- app_assoc, skip_first. auto.
    + destruct (fold_left _ _ (Ok (seen ++ [(h, heap x)]))) as [m|] eqn:M; cbn in *; [discriminate|]. congruence.
Qed.

Lemma distinct_rules_set H heap ls ls' : distinct_rules H heap ls [] = Ok ls' ->
  exists m, rule_set H (map heap ls) = Ok m /\ map snd m = map heap ls'.
Proof.
  intros E. pose proof (distinct_map H heap ls []) as D. rewrite E in D. cbn [rmap List.length skipn] in D. unfold rule_set.
  match type of D with _ = rmap _ ?x => destruct x as [m|] eqn:M end; cbn in D; [|discriminate]. exists m. split; [reflexivity|]. congruence.
Qed.

Lemma picked heap ls : forall idx ls', rseq (map (py_index ls) idx) = Ok ls' ->
  (forall l, In l ls' -> In l ls) /\ rseq (map (py_index (map heap ls)) idx) = Ok (@map nat rule heap ls').
Proof.
  induction idx as [|i idx IH]; intros ls' E; cbn in E.
  - injection E as <-. split; [intros l []|]. auto.
  - destruct (py_index ls i) as [x|] eqn:P; [|discriminate]. cbn in E. destruct (rseq (map (py_index ls) idx)) as [m|]; [|discriminate].
    cbn in E. injection E as <-. destruct (IH m eq_refl) as (I1 & I2).
    assert (Q : In x ls /\ py_index (map heap ls) i = Ok (heap x)).
    { assert (W : forall n, at_pos ls n = Ok x -> In x ls /\ at_pos (map heap ls) n = Ok (heap x)).
      { unfold at_pos. intros n W. destruct (nth_error ls n) as [y|] eqn:N; [|discriminate]. injection W as ->.
        split; [eapply nth_error_In; eauto|]. rewrite (map_nth_error heap _ _ N). auto. }
      unfold py_index in *. rewrite map_length. destruct (_ && _); auto. destruct (_ && _); auto. discriminate. }
    destruct Q as (Q1 & Q2). split.
    + intros l [->|I]; auto.
    + cbn. rewrite Q2, I2. auto.
Qed.

(** The DataFrames that a command changes in place *)
Definition grows (p : pool) (c : command) (k : nat) : Prop := exists i h, adds c i /\ ruleset_at p i h /\ b_frame h = Some k.

(** The rules of the ruleset afterwards come from the command. *)
Definition rules_from (p : pool) (c : command) (q : handle) : Prop := forall l, In l (b_rules q) ->
  argument c l \/ exists i h, operand c i /\ ruleset_at p i h /\ In l (b_rules h).

Definition frame_from (p p' : pool) (c : command) (q : handle) : Prop :=
  newer p p' (b_frame q) \/ exists i h, operand c i /\ ruleset_at p i h /\ b_frame q = b_frame h /\ (target_of c = Some i \/ takes p c).

(** Steps on the target *)
Lemma phased_does p p' i h h' R : ruleset_at p i h -> phased p p' i h h' -> (forall l, ~ R l -> p_rules p' l = p_rules p l) ->
  does p p' (Some i) R (fun _ => False) (fun q => incl (b_rules q) (b_rules h) /\ own p p' h q).
Proof.
  intros A [P1 P2 P3 P4 P5 P6] HR. split.
  - constructor; auto. eapply sets_kept; eauto.
  - right. exists h'. split; [eapply after_replace; eauto|]. auto.
Qed.

Lemma tracks_does {A} p i h (m : res A * pool) v o p' R : ruleset_at p i h -> tracks p i h m v -> m = (o, p') ->
  (forall l, ~ R l -> p_rules p' l = p_rules p l) \/ (forall l, In l (b_rules h) -> R l) ->
  does p p' (Some i) R (fun _ => False) (fun q => incl (b_rules q) (b_rules h) /\ own p p' h q).
Proof.
  intros A1 (h' & P & _) -> HR. eapply phased_does; eauto. destruct HR as [HR|HR]; auto. intros l N. apply (ph_rules _ _ _ _ _ P). auto.
Qed.

Lemma sort_rules_kept G i criterion reverse p : p_rules (snd (pool_sort G i criterion reverse p)) = p_rules p.
Proof.
  unfold pool_sort, method. destruct (get p i) as [h|]; auto. destruct (set_sort _ _ _ _) as [o s'].
  destruct (objects_sorted _ _ _ _ _ _) as [[l|]|]; auto. unfold frame_after_step, new_frame.
  destruct (s_stacked s'), (b_frame h), o; auto. destruct (s_stack (view p h)); auto.
Qed.

Lemma exec_does G X c p o p' : exec G X c p = (o, p') ->
  does p p' (target_of c) (changes G p c) (grows p c) (fun q => rules_from p c q /\ frame_from p p' c q).
Proof.
  assert (New : forall ls compute stacking o p', constructs c -> target_of c = None ->
    (forall l, In l ls -> argument c l \/ exists i h, operand c i /\ ruleset_at p i h /\ In l (b_rules h)) ->
    pool_new ls (new_set G (Some (map ERule (map (p_rules p) ls))) compute stacking) p = (o, p') ->
    does p p' (target_of c) (changes G p c) (grows p c) (fun q => rules_from p c q /\ frame_from p p' c q)).
  { intros ls compute stacking o1 p1 C T L E. rewrite T. eapply does_weaken.
    - eapply (new_does ls _ p o1 p1 (changes G p c)); [|exact E]. intros s N. eapply new_rules; [exact N|].
      intros GI l I. right. split; auto.
    - auto.
    - intros k [].
    - intros q (Q1 & Q2). split; [intros l I; apply L; congruence|]. left. auto. }
  assert (Mine : forall i h, operand c i -> ruleset_at p i h -> forall l, In l (b_rules h) ->
    argument c l \/ exists i h, operand c i /\ ruleset_at p i h /\ In l (b_rules h)) by (intros; right; eauto).
  intros E. destruct c; cbn [exec] in E.
  - (* Empty *) eapply does_weaken.
    + eapply (new_does [] _ p o p' (fun _ => False)); [|exact E]. auto.
    + intros l [].
    + intros k [].
    + intros q (Q1 & Q2). split; [intros l I; rewrite Q1 in I; destruct I|]. left. auto.
  - (* Init *) unfold pool_init in E. eapply New; [constructor|reflexivity| |exact E]. intros l I. left. constructor; auto.
  - (* AddRule *) unfold pool_add_rule, method in E. destruct (get p i) as [h|] eqn:A; [|injection E as <- <-; apply does_none].
    apply get_ok in A. destruct (add_rule G (p_rules p l) (view p h)) as [o1 s'] eqn:S. injection E as <- <-. cbn [target_of].
    eapply does_weaken; [apply appended_does; exact A| | |].
    + intros x K. exact K.
    + intros k K. exists i, h. split; [constructor|auto].
    + intros q (Q1 & Q2). split.
      * intros x I. destruct Q2 as [Q2|Q2]; rewrite Q2 in I; [|apply in_app_or in I as [I|[<-|[]]]].
        -- eapply Mine; [apply O_target; constructor|exact A|auto].
        -- eapply Mine; [apply O_target; constructor|exact A|auto].
        -- left. constructor.
      * destruct Q1 as [Q1|Q1]; [right; exists i, h|left; auto]. repeat split; auto. apply O_target; constructor.
  - (* Append *) unfold pool_append, method in E. destruct (get p i) as [h|] eqn:A; [|injection E as <- <-; apply does_none].
    apply get_ok in A. destruct (append G (ERule (p_rules p l)) update (view p h)) as [o1 s'] eqn:S. injection E as <- <-. cbn [target_of].
    eapply does_weaken; [apply appended_does; exact A| | |].
    + intros x K. exact K.
    + intros k K. exists i, h. split; [constructor|auto].
    + intros q (Q1 & Q2). split.
      * intros x I. destruct Q2 as [Q2|Q2]; rewrite Q2 in I; [|apply in_app_or in I as [I|[<-|[]]]].
        -- eapply Mine; [apply O_target; constructor|exact A|auto].
        -- eapply Mine; [apply O_target; constructor|exact A|auto].
        -- left. constructor.
      * destruct Q1 as [Q1|Q1]; [right; exists i, h|left; auto]. repeat split; auto. apply O_target; constructor.
  - (* AddSet *) unfold pool_add_set in E. destruct (get p j) as [g|] eqn:B; [|injection E as <- <-; apply does_none]. apply get_ok in B.
    unfold method in E. destruct (get p i) as [h|] eqn:A; [|injection E as <- <-; apply does_none]. apply get_ok in A.
    destruct (add_set (view p g) (view p h)) as [o1 s'] eqn:S. cbv zeta in E.
    set (ls := if (_ =? _)%nat then b_rules h else b_rules h ++ b_rules g) in E.
    assert (L : forall l, In l ls -> argument (AddSet i j) l \/ exists i0 h, operand (AddSet i j) i0 /\ ruleset_at p i0 h /\ In l (b_rules h)).
    { intros l I. assert (I' : In l (b_rules h) \/ In l (b_rules g)).
      { subst ls. destruct (_ =? _)%nat; auto. apply in_app_or; auto. }
      destruct I' as [I'|I']; [apply (Mine i h); auto; repeat constructor|apply (Mine j g); auto; apply O_add_set]. }
    assert (Keep : does p (keep_set i ls (b_frame h) s' p) (target_of (AddSet i j)) (changes G p (AddSet i j)) (grows p (AddSet i j))
              (fun q => rules_from p (AddSet i j) q /\ frame_from p (keep_set i ls (b_frame h) s' p) (AddSet i j) q)).
    { split.
      - constructor; cbn; auto. eapply sets_kept; reflexivity.
      - right. eexists. split; [eapply after_replace; [exact A|reflexivity]|]. split; [exact L|]. right. exists i, h. cbn.
        repeat split; auto. repeat constructor. }
    destruct o1 as [[]|e]; [|injection E as <- <-; exact Keep].
    destruct (s_stack (view p h) && set_available (view p g)) eqn:C; [|injection E as <- <-; exact Keep].
    apply andb_prop in C as (C1 & C2).
    destruct (b_frame h) as [k|] eqn:BF.
    + destruct (fresh_cases s' p) as [(N & F)|(f & N & F)]; rewrite F in E; injection E as <- <-.
      * split.
        -- constructor; cbn; auto. eapply sets_kept; reflexivity.
        -- right. eexists. split; [eapply after_replace; [exact A|reflexivity]|]. split; [exact L|]. left. left. auto.
      * split.
        -- constructor; cbn; auto; [intros k' K _; apply put_other; lia|]. eapply sets_kept; reflexivity.
        -- right. eexists. split; [eapply after_replace; [exact A|reflexivity]|]. split; [exact L|]. left. apply newer_next. auto.
    + injection E as <- <-. split.
      * constructor; cbn; auto. eapply sets_kept; reflexivity.
      * right. eexists. split; [eapply after_replace; [exact A|reflexivity]|]. split; [exact L|]. 
        destruct (b_frame g) as [k|] eqn:BG.
        -- right. exists j, g. cbn. split; [apply O_add_set|]. split; auto. split; auto. right. exists i, j, h, g, k. repeat split; auto.
        -- left. left. auto.
  - (* PlusRule *) unfold pool_plus_rule, method in E. destruct (get p i) as [h|] eqn:A; [|injection E as <- <-; apply does_none].
    apply get_ok in A. eapply (New (b_rules h ++ [l])); [constructor|reflexivity| |].
    + intros x I. apply in_app_or in I as [I|[<-|[]]]; [|left; constructor]. eapply Mine; [apply O_plus_rule|exact A|auto].
    + rewrite map_app. exact E.
  - (* PlusSet *) unfold pool_plus_set in E. destruct (get p j) as [g|] eqn:B; [|injection E as <- <-; apply does_none]. apply get_ok in B.
    unfold method in E. destruct (get p i) as [h|] eqn:A; [|injection E as <- <-; apply does_none]. apply get_ok in A.
    destruct (distinct_rules _ _ _ _) as [ls|] eqn:D in E; [|injection E as <- <-; apply does_none].
    destruct (distinct_rules_set _ _ _ _ D) as (m & M1 & M2). eapply (New ls); [constructor|reflexivity| |].
    + intros x I. apply (distinct_in _ _ _ _ _ D) in I. apply in_app_or in I as [I|I]; [apply (Mine i h); auto; apply O_plus_left|apply (Mine j g); auto; apply O_plus_right].
    + rewrite <- M2, map_map. unfold plus_set in E. cbn [s_rules view with_rules with_stacked] in E. rewrite <- map_app, M1 in E. exact E.
  - (* SetRules *) unfold pool_set_rules, method in E. destruct (get p i) as [h|] eqn:A; [|injection E as <- <-; apply does_none].
    apply get_ok in A. unfold set_rules, use in E.
    destruct (new_set G (Some (map ERule (map (p_rules p) ls))) true (s_stack (view p h))) as [t|] eqn:N; [|injection E as <- <-; apply does_none].
    cbn [done] in E.
    match type of E with (let (f, p0) := fresh_frame ?x _ in _) = _ => set (s' := x) in E end.
    assert (R : forall l, ~ changes G p (SetRules i ls) l -> put_all ls (s_rules s') (p_rules p) l = p_rules p l).
    { apply (new_rules G (p_rules p) ls true (s_stack (view p h)) t); auto. intros GI l I. right. split; auto. split; [constructor|].
      left. constructor; auto. }
    destruct (fresh_cases s' (keep_rules ls (s_rules s') p)) as [(W & F)|(f & W & F)]; rewrite F in E; injection E as <- <-; split.
    + constructor; cbn; auto. eapply sets_kept; reflexivity.
    + right. eexists. split; [eapply after_replace; [exact A|reflexivity]|]. split; [intros l I; left; constructor; auto|]. left. left. auto.
    + constructor; cbn; auto; [intros k K _; apply put_other; lia|]. eapply sets_kept; reflexivity.
    + right. eexists. split; [eapply after_replace; [exact A|reflexivity]|]. split; [intros l I; left; constructor; auto|]. left. apply newer_next. auto.
  - (* Slice *) unfold pool_slice, method in E. destruct (get p i) as [h|] eqn:A; [|injection E as <- <-; apply does_none].
    apply get_ok in A. destruct (slice_range start stop step (Z.of_nat (List.length (b_rules h)))) as [idx|] eqn:I; [|injection E as <- <-; apply does_none].
    cbn [rbind] in E. destruct (rseq (map (py_index (b_rules h)) idx)) as [ls|] eqn:L; [|injection E as <- <-; apply does_none].
    destruct (picked (p_rules p) _ _ _ L) as (P1 & P2). eapply (New ls); [constructor|reflexivity| |].
    + intros x K. eapply Mine; [apply O_slice|exact A|auto].
    + unfold getitem_slice in E. cbn [s_rules view with_rules with_stacked] in E. rewrite map_length, I in E. cbn [rbind] in E. rewrite P2 in E. exact E.
  - (* Calc *) unfold pool_calc, method in E. destruct (get p i) as [h|] eqn:A; [|injection E as <- <-; apply does_none].
    apply get_ok in A. destruct (set_calc_activation G xs (view p h)) as [o1 s'] eqn:S. cbv zeta in E. cbn [target_of].
    assert (R : forall l, In l (b_rules h) -> changes G p (Calc i xs) l) by (intros l I; left; exists i, h; repeat split; auto; constructor).
    assert (L : forall f, rules_from p (Calc i xs) (mkHandle (b_rules h) f s')).
    { intros f l I. eapply Mine; [apply O_target; constructor|exact A|exact I]. }
    assert (Keep : forall f, f = None \/ f = b_frame h ->
              let p1 := keep_set i (b_rules h) f s' (keep_rules (b_rules h) (s_rules s') p) in
              does p p1 (Some i) (changes G p (Calc i xs)) (grows p (Calc i xs))
              (fun q => rules_from p (Calc i xs) q /\ frame_from p p1 (Calc i xs) q)).
    { intros f HF p1. subst p1. split.
      - constructor; cbn; auto; [|eapply sets_kept; reflexivity]. intros l N. apply put_all_other. auto.
      - right. eexists. split; [eapply after_replace; [exact A|reflexivity]|]. split; [apply L|].
        destruct HF as [->| ->]; [left; left; auto|]. right. exists i, h. cbn. repeat split; auto. repeat constructor. }
    destruct (s_stacked s') as [f|]; [|injection E as <- <-; apply Keep; auto].
    destruct o1 as [[]|e]; [|injection E as <- <-; apply Keep; auto].
    destruct (s_stack (view p h) && negb (nrows xs =? 0)%nat); [|injection E as <- <-; apply Keep; auto].
    cbn in E. injection E as <- <-. split.
    + constructor; cbn; auto; [|intros k K _; apply put_other; lia|]; [|eapply sets_kept; reflexivity].
      intros l N. apply put_all_other. auto.
    + right. eexists. split; [eapply after_replace; [exact A|reflexivity]|]. split; [apply L|]. left. apply newer_next. auto.
  - (* DelActivations *) unfold pool_del_activations, pool_change, method in E. destruct (get p i) as [h|] eqn:A; [|injection E as <- <-; apply does_none].
    apply get_ok in A. cbn in E. injection E as <- <-. cbn [target_of]. eapply does_weaken.
    + eapply (fun Q => keep_does i h _ _ _ _ _ p (changes G p (DelActivations i)) Q A).
      * intros l I. left. exists i, h. repeat split; auto. constructor.
      * instantiate (1 := fun q => b_rules q = b_rules h /\ b_frame q = b_frame h). split; reflexivity.
    + auto.
    + intros k [].
    + intros q (Q1 & Q2). split.
      * intros l I. rewrite Q1 in I. eapply Mine; [apply O_target; constructor|exact A|exact I].
      * right. exists i, h. repeat split; auto. repeat constructor.
  - (* DelActivation *) unfold pool_del_activation, method in E. destruct (get p i) as [h|] eqn:A; [|injection E as <- <-; apply does_none].
    apply get_ok in A. injection E as <- <-. cbn [target_of]. split.
    + constructor; cbn; auto. eapply sets_kept; reflexivity.
    + right. eexists. split; [eapply after_replace; [exact A|reflexivity]|]. split.
      * intros l I. eapply Mine; [apply O_target; constructor|exact A|exact I].
      * right. exists i, h. repeat split; auto. repeat constructor.
  - (* DelStacked *) unfold pool_del_stacked, method in E. destruct (get p i) as [h|] eqn:A; [|injection E as <- <-; apply does_none].
    apply get_ok in A. injection E as <- <-. cbn [target_of]. split.
    + constructor; cbn; auto. eapply sets_kept; reflexivity.
    + right. eexists. split; [eapply after_replace; [exact A|reflexivity]|]. split.
      * intros l I. eapply Mine; [apply O_target; constructor|exact A|exact I].
      * left. left. auto.
  - (* ToDf *) unfold pool_to_df, pool_change, method in E. destruct (get p i) as [h|] eqn:A; [|injection E as <- <-; apply does_none].
    apply get_ok in A. destruct (to_df X None attributes (view p h)) as [o1 s'] eqn:S. injection E as <- <-. cbn [target_of]. eapply does_weaken.
    + eapply (fun Q => keep_does i h _ _ _ _ _ p (changes G p (ToDf i attributes)) Q A).
      * intros l I. left. exists i, h. repeat split; auto. constructor.
      * instantiate (1 := fun q => b_rules q = b_rules h /\ b_frame q = b_frame h). split; reflexivity.
    + auto.
    + intros k [].
    + intros q (Q1 & Q2). split.
      * intros l I. rewrite Q1 in I. eapply Mine; [apply O_target; constructor|exact A|exact I].
      * right. exists i, h. repeat split; auto. repeat constructor.
  - (* Fit *) destruct (get p i) as [h|] eqn:A; [|unfold pool_fit, look in E; rewrite A in E; injection E as <- <-; apply does_none].
    apply get_ok in A. eapply does_weaken; [eapply (tracks_does p i h _ _ _ _ (changes G p (Fit i y series xs force kw))); [exact A|apply tracks_fit; exact A|exact E|right]| | |].
    + intros l I. left. exists i, h. repeat split; eauto. constructor.
    + auto.
    + intros k [].
    + intros q (Q1 & Q2). split; [intros l I; eapply Mine; [apply O_target; constructor|exact A|auto]|].
      destruct Q2 as [Q2|Q2]; [right; exists i, h|left; auto]. repeat split; auto. repeat constructor.
  - (* Eval *) destruct (get p i) as [h|] eqn:A; [|unfold pool_eval, look in E; rewrite A in E; injection E as <- <-; apply does_none].
    apply get_ok in A. eapply does_weaken; [eapply (tracks_does p i h _ _ _ _ (changes G p (Eval i y xs keep_new w force kw))); [exact A|apply tracks_eval; exact A|exact E|right]| | |].
    + intros l I. left. exists i, h. repeat split; eauto. constructor.
    + auto.
    + intros k [].
    + intros q (Q1 & Q2). split; [intros l I; eapply Mine; [apply O_target; constructor|exact A|auto]|].
      destruct Q2 as [Q2|Q2]; [right; exists i, h|left; auto]. repeat split; auto. repeat constructor.
  - (* Sort *) destruct (get p i) as [h|] eqn:A; [|unfold pool_sort, method in E; rewrite A in E; injection E as <- <-; apply does_none].
    apply get_ok in A. eapply does_weaken; [eapply (tracks_does p i h _ _ _ _ (changes G p (Sort i criterion reverse))); [exact A|apply tracks_sort; exact A|exact E|left]| | |].
    + intros l N. pose proof (sort_rules_kept G i criterion reverse p) as K. rewrite E in K. cbn [snd] in K. rewrite K. auto.
    + auto.
    + intros k [].
    + intros q (Q1 & Q2). split; [intros l I; eapply Mine; [apply O_target; constructor|exact A|auto]|].
      destruct Q2 as [Q2|Q2]; [right; exists i, h|left; auto]. repeat split; auto. repeat constructor.
  - (* Predict *) destruct (get p i) as [h|] eqn:A; [|unfold pool_predict, phase in E; rewrite A in E; injection E as <- <-; apply does_none].
    apply get_ok in A. eapply does_weaken; [eapply (tracks_does p i h _ _ _ _ (changes G p (Predict i xs w))); [exact A|apply tracks_predict; exact A|exact E|right]| | |].
    + intros l I. left. exists i, h. repeat split; eauto. constructor.
    + auto.
    + intros k [].
    + intros q (Q1 & Q2). split; [intros l I; eapply Mine; [apply O_target; constructor|exact A|auto]|].
      destruct Q2 as [Q2|Q2]; [right; exists i, h|left; auto]. repeat split; auto. repeat constructor.
Qed.

(** The activation of a ruleset is the union of those of its rules. *)
From Coq Require Import List ZArith QArith Bool String Ascii Permutation Lia.
From Coq Require Import List.
From Verif Require Import Base Num CondModel CondSpec CondBase ThrModel ThrProofs MetModel MetSpec RuleModel RuleSpec RuleProofs RuleValues.
From Verif Require Import PredModel PredSpec PredReg PredStack SetModel SetSpec SetBase SetSort.
Import ListNotations.
Open Scope string_scope.
Open Scope list_scope.
Open Scope Z_scope.

(** ** Unions *)

Lemma working_act r v : working r None v <-> exists a, r_act r = Some a /\ v_here a = true /\ v_bits a = v.
Proof.
  unfold working. split.
  - intros (a & A & R). apply raw_inv in R as (H & E). eauto.
  - intros (a & A & H & E). exists a. split; auto. unfold raw. rewrite H, E. auto.
Qed.

Lemma present_act r : present r -> exists a, r_act r = Some a /\ v_here a = true /\ v_bits a <> [] /\ bits (v_bits a).
Proof. intros (v & W & B & N). apply working_act in W as (a & A & H & <-). eauto. Qed.

Lemma present_available r : present r -> activation_available r = true.
Proof. intros P. apply present_act in P as (a & A & H & _). unfold activation_available. rewrite A. auto. Qed.

Lemma bits_nth v i : bits v -> nth i v 0 = 0 \/ nth i v 0 = 1.
Proof.
  intros B. destruct (Nat.lt_ge_cases i (List.length v)) as [L|L].
  - unfold bits in B. rewrite Forall_forall in B. apply B. apply nth_In. auto.
  - left. apply nth_overflow. auto.
Qed.

Lemma nth_map_seq (f : nat -> Z) n i : (i < n)%nat -> nth i (map f (seq 0 n)) 0 = f i.
Proof.
  intros L. rewrite (nth_indep _ 0 (f O)) by (rewrite map_length, seq_length; auto). rewrite map_nth, seq_nth; auto.
Qed.

(** Only the vectors of the rules matter. *)
Lemma covers_same rules rules' w : (forall r, In r rules -> exists r', In r' rules' /\ r_act r' = r_act r) ->
  (forall r, In r rules' -> exists r', In r' rules /\ r_act r' = r_act r) -> covers rules w -> covers rules' w.
Proof.
  intros F G (L & H). assert (W : forall r r' v, r_act r' = r_act r -> working r None v -> working r' None v).
  { intros r r' v E. unfold working. rewrite E. auto. }
  split.
  - intros r v R V. destruct (G r R) as (r' & R' & E). eapply L; eauto.
  - intros i I. destruct (H i I) as [(A & r & v & R & V & N)|(A & Z)]; [left|right]; split; auto.
    + destruct (F r R) as (r' & R' & E). exists r', v. eauto.
    + intros r v R V. destruct (G r R) as (r' & R' & E). eapply Z; eauto.
Qed.

Lemma multi_or_ok rules acs a : rules <> [] -> (forall r, In r rules -> present r) ->
  Forall2 (fun r a => r_act r = Some a) rules acs -> multi_or acs = Ok a -> v_here a = true /\ v_bits a <> [] /\ bits (v_bits a) /\ covers rules (v_bits a).
Proof.
  intros N P F H. unfold multi_or in H. destruct (rseq (map raw acs)) as [vs|] eqn:E; [|discriminate]. cbn [rbind] in H.
  apply rseq_map_ok in E.
  assert (W : Forall2 (fun r v => working r None v) rules vs).
  { clear - F E. revert vs E. induction F; intros vs E; inv E; constructor; auto. exists y. auto. }
  clear E F. destruct vs as [|v t]; [discriminate|]. destruct (forallb _ t) eqn:L; [|discriminate]. injection H as <-. cbn.
  rewrite forallb_forall in L. assert (LV : forall u, In u (v :: t) -> List.length u = List.length v).
  { intros u [<-|U]; auto. apply Nat.eqb_eq. auto. }
  destruct (forall2_in _ _ _ W) as (W1 & W2).
  assert (LW : forall r u, In r rules -> working r None u -> List.length u = List.length v).
  { intros r u R U. destruct (W1 r R) as (u' & I & U'). assert (u = u') as -> by (eapply working_fun; eauto). auto. }
  assert (NE : v <> []).
  { destruct rules as [|r rules]; [congruence|]. inv W. destruct (P r (or_introl eq_refl)) as (u & U & _ & Nu). intros ->.
    apply Nu. assert (E : List.length u = 0%nat) by (apply (LW r u); cbn; auto). destruct u; auto. discriminate. }
  split; auto. split; [destruct v; [congruence|discriminate]|]. split.
  { apply Forall_forall. intros x X. apply in_map_iff in X as (i & <- & _). unfold or_column. destruct (existsb _ _); auto. }
  split; rewrite map_length, seq_length.
  - auto.
  - intros i I. rewrite nth_map_seq by auto. unfold or_column. destruct (existsb _ _) eqn:X.
    + left. split; auto. apply existsb_exists in X as (u & U & K). destruct (W2 u U) as (r & R & Wu). exists r, u. split; auto. split; auto.
      apply negb_true_iff, Z.eqb_neq in K. destruct (P r R) as (u' & U' & B & _). assert (u' = u) as -> by (eapply working_fun; eauto).
      destruct (bits_nth u i B); auto. congruence.
    + right. split; auto. intros r u R U. rewrite existsb_false in X. destruct (W1 r R) as (u' & I' & U').
      assert (u' = u) as -> by (eapply working_fun; eauto). specialize (X u I'). apply negb_false_iff, Z.eqb_eq in X. auto.
Qed.

Definition united (rules : list rule) (o : option activation) : Prop :=
  (forall r, In r rules -> present r) ->
  match rules with
  | [] => o = None \/ exists a, o = Some a /\ v_bits a = []
  | _ => exists a, o = Some a /\ v_here a = true /\ v_coverage a = XNone /\ v_bits a <> [] /\ bits (v_bits a) /\ covers rules (v_bits a)
  end.

Lemma evaluate_self_united s o : evaluate_self_activation None s = Ok o -> united (s_rules s) o.
Proof.
  unfold evaluate_self_activation. intros H P. destruct (s_rules s) as [|r t] eqn:R.
  - injection H as <-. right. eexists. split; eauto.
  - replace (forallb activation_available (r :: t)) with true in H.
    2: { symmetry. apply forallb_forall. intros x X. apply present_available. auto. }
    destruct (rseq _) as [acs|] eqn:E in H; [|discriminate]. cbn [rmap rbind] in H. apply rseq_map_ok in E.
    assert (F : Forall2 (fun r a => r_act r = Some a) (r :: t) acs).
    { clear - E. induction E as [|x y l m K F IH]; constructor; auto. destruct (r_act x); congruence. }
    clear E. assert (M : forall a, multi_or acs = Ok a -> o = Some a -> v_coverage a = XNone ->
      exists a, o = Some a /\ v_here a = true /\ v_coverage a = XNone /\ v_bits a <> [] /\ bits (v_bits a) /\ covers (r :: t) (v_bits a)).
    { intros a Ma -> C. exists a. split; auto. destruct (multi_or_ok (r :: t) acs a) as (Q1 & Q2 & Q3 & Q4); auto. discriminate. }
    assert (C : forall a, multi_or acs = Ok a -> v_coverage a = XNone).
    { intros a Ma. unfold multi_or in Ma. destruct (rseq (map raw acs)) as [[|v vs]|]; try discriminate. cbn [rbind] in Ma.
      destruct (forallb _ vs); [|discriminate]. injection Ma as <-. auto. }
    destruct acs as [|a1 [|a2 acs]].
    + inv F.
    + inv F. inv H5. destruct (raw a1) as [v|] eqn:V; [|discriminate]. injection H as <-.
      exists (new_activation v). cbn. split; auto. split; auto. split; auto.
      assert (W : working r None v) by (exists a1; auto).
      destruct (P r (or_introl eq_refl)) as (v' & W' & B & N). assert (v' = v) as -> by (eapply working_fun; eauto).
      split; auto. split; auto. split.
      * intros q u [<-|[]] U. f_equal. eapply working_fun; eauto.
      * intros i I. destruct (bits_nth v i B) as [Z|Z]; [right|left]; (split; auto).
        -- intros q u [<-|[]] U. replace u with v; auto. eapply working_fun; eauto.
        -- exists r, v. cbn. auto.
    + destruct (multi_or (a1 :: a2 :: acs)) as [a|] eqn:Ma; [|discriminate]. injection H as <-. eapply M; eauto.
Qed.

Lemma lor_bits a b : (a = 0 \/ a = 1) -> (b = 0 \/ b = 1) -> Z.lor a b = if (a =? 1) || (b =? 1) then 1 else 0.
Proof. intros [->| -> ] [->| -> ]; auto. Qed.

Lemma act_or_ok a b c : act_or a b = Ok c -> bits (v_bits a) -> bits (v_bits b) ->
  v_here a = true /\ v_here b = true /\ List.length (v_bits b) = List.length (v_bits a) /\
  v_here c = true /\ v_coverage c = XNone /\ List.length (v_bits c) = List.length (v_bits a) /\ bits (v_bits c) /\
  forall i, nth i (v_bits c) 0 = 1 <-> (nth i (v_bits a) 0 = 1 \/ nth i (v_bits b) 0 = 1).
Proof.
  unfold act_or. intros H A B. destruct (alen a =? alen b) eqn:L; [|discriminate]. cbn [negb] in H. apply Z.eqb_eq in L.
  unfold alen in L. apply Nat2Z.inj in L. unfold raw in H. destruct (v_here a); [|discriminate]. destruct (v_here b); [|discriminate].
  cbn [rbind] in H. injection H as <-. cbn. do 5 (split; auto). split; [rewrite map_length, combine_length; lia|]. split.
  - clear L. apply Forall_forall. intros x X. apply in_map_iff in X as ((p, q) & <- & I). cbn.
    unfold bits in A, B. rewrite Forall_forall in A, B. pose proof (in_combine_l _ _ _ _ I). pose proof (in_combine_r _ _ _ _ I).
    rewrite lor_bits by auto. destruct (_ || _); auto.
  - generalize (v_bits b), B, L. clear B L. induction (v_bits a) as [|x l IH]; intros [|y m] B L i; try discriminate.
    + destruct i; cbn; intuition discriminate.
    + inv A. inv B. injection L as L. destruct i; cbn [combine map nth fst snd]; [|apply IH; auto].
      rewrite lor_bits by auto. destruct H1, H3; subst; cbn; intuition discriminate.
Qed.

(** One more vector *)
Lemma united_or rules more a b c :
  rules <> [] -> more <> [] ->
  v_here a = true /\ v_bits a <> [] /\ bits (v_bits a) /\ covers rules (v_bits a) ->
  v_here b = true /\ v_bits b <> [] /\ bits (v_bits b) /\ covers more (v_bits b) ->
  act_or a b = Ok c ->
  v_here c = true /\ v_coverage c = XNone /\ v_bits c <> [] /\ bits (v_bits c) /\ covers (rules ++ more) (v_bits c).
Proof.
  intros N M (A1 & A2 & A3 & A4 & A5) (B1 & B2 & B3 & B4 & B5) E.
  destruct (act_or_ok a b c E A3 B3) as (_ & _ & L & C1 & C2 & C3 & C4 & C5).
  split; auto. split; auto. split. { intros K. rewrite K in C3. destruct (v_bits a); [congruence|discriminate]. }
  split; auto. split.
  - intros r v R V. rewrite C3. apply in_app_or in R as [R|R]; [eapply A4; eauto|rewrite <- L; eapply B4; eauto].
  - intros i I. rewrite C3 in I. pose proof (bits_nth _ i C4) as D. destruct D as [D|D].
    + right. split; auto. assert (X : ~ (nth i (v_bits a) 0 = 1 \/ nth i (v_bits b) 0 = 1)) by (rewrite <- C5; congruence).
      intros r v R V. apply in_app_or in R as [R|R].
      * destruct (A5 i I) as [(K & _)|(_ & K)]; [exfalso; auto|eauto].
      * destruct (B5 i) as [(K & _)|(_ & K)]; [congruence|exfalso; auto|eauto].
    + left. split; auto. apply C5 in D as [D|D].
      * destruct (A5 i I) as [(_ & r & v & R & V & K)|(K & _)]; [|congruence]. exists r, v. split; [apply in_or_app; auto|auto].
      * destruct (B5 i) as [(_ & r & v & R & V & K)|(K & _)]; [congruence| |congruence]. exists r, v. split; [apply in_or_app; auto|auto].
Qed.

Lemma united_single r a v : present r -> r_act r = Some a -> v = v_bits a ->
  v_here a = true /\ v <> [] /\ bits v /\ covers [r] v.
Proof.
  intros P A ->. apply present_act in P as (a' & A' & H & N & B). rewrite A in A'. injection A' as <-.
  split; auto. split; auto. split; auto.
  assert (W : working r None (v_bits a)) by (apply working_act; eauto). split.
  - intros q u [<-|[]] U. f_equal. eapply working_fun; eauto.
  - intros i I. destruct (bits_nth _ i B) as [Z|Z]; [right|left]; (split; auto).
    + intros q u [<-|[]] U. replace u with (v_bits a); auto. eapply working_fun; eauto.
    + exists r, (v_bits a). cbn. auto.
Qed.

Lemma united_nonempty rules o : rules <> [] -> united rules o -> (forall r, In r rules -> present r) ->
  exists a, o = Some a /\ v_here a = true /\ v_coverage a = XNone /\ v_bits a <> [] /\ bits (v_bits a) /\ covers rules (v_bits a).
Proof. intros N U P. specialize (U P). destruct rules; [congruence|auto]. Qed.

Lemma united_empty o : united [] o -> o = None \/ exists a, o = Some a /\ v_bits a = [].
Proof. intros U. apply U. intros r []. Qed.

Lemma united_some rules a : v_here a = true -> v_coverage a = XNone -> v_bits a <> [] -> bits (v_bits a) -> rules <> [] ->
  covers rules (v_bits a) -> united rules (Some a).
Proof. intros H C N B R K P. destruct rules; [congruence|]. exists a. auto 8. Qed.

(** Adding more rules, whose union is that of the other object *)
Lemma united_update rules more o other av vec o' :
  united rules o -> more <> [] ->
  ((forall r, In r more -> present r) ->
   exists b, other = Some b /\ v_here b = true /\ v_bits b <> [] /\ bits (v_bits b) /\ covers more (v_bits b) /\
     av = true /\ vec = Ok (Some (v_bits b))) ->
  updated av vec other o o' -> united (rules ++ more) o'.
Proof.
  intros U M HB X P.
  assert (PR : forall r, In r rules -> present r) by (intros; apply P; apply in_or_app; auto).
  destruct HB as (b & -> & B1 & B2 & B3 & B4 & -> & ->). { intros; apply P; apply in_or_app; auto. }
  assert (Z : rules ++ more <> []) by (destruct rules; auto; discriminate).
  assert (G : exists a, o' = Some a /\ v_here a = true /\ v_coverage a = XNone /\ v_bits a <> [] /\ bits (v_bits a) /\ covers (rules ++ more) (v_bits a)).
  { destruct X as [|v _ E K|a b' c _ E N K L]; [discriminate| |].
    - injection K as <-. exists (new_activation (v_bits b)). cbn. split; auto. split; auto. split; auto. split; auto. split; auto.
      destruct rules as [|r rules]; auto. exfalso. destruct (united_nonempty (r :: rules) o) as (a & -> & _ & _ & A2 & _); auto; [discriminate|].
      destruct E as [E|(a' & E & F)]; [discriminate|]. injection E as <-. auto.
    - injection K as <-. destruct rules as [|r rules].
      + exfalso. destruct (united_empty _ U) as [->|(a' & -> & F)]; [discriminate|]. injection E as <-. auto.
      + destruct (united_nonempty (r :: rules) o) as (a' & E' & A1 & A0 & A2 & A3 & A4); auto; [discriminate|].
        rewrite E' in E. injection E as <-. exists c. split; auto.
        destruct (united_or (r :: rules) more a' b c) as (C1 & C2 & C3 & C4 & C5); auto; discriminate. }
  destruct (rules ++ more); [congruence|auto].
Qed.

Lemma available_vector r a : r_act r = Some a -> v_here a = true -> v_bits a <> [] ->
  activation_available r = true /\ activation_vector r = Ok (Some (v_bits a)).
Proof.
  intros A H N. unfold activation_available, activation_vector, raw. rewrite A, H, (alen_nonempty a N). auto.
Qed.

Lemma set_available_vector s a : s_act s = Some a -> v_here a = true -> v_bits a <> [] ->
  set_available s = true /\ set_vector s = Ok (Some (v_bits a)).
Proof.
  intros A H N. unfold set_available, set_vector, raw. rewrite A, H, (alen_nonempty a N). auto.
Qed.

Lemma united_reindexed l m o : Forall2 reindexed l m -> united l o -> united m o.
Proof.
  intros F U P. destruct (forall2_in _ _ _ F) as (F1 & F2).
  assert (PL : forall r, In r l -> present r).
  { intros r R. destruct (F1 r R) as (r' & R' & E). destruct (P r' R') as (v & W & K). exists v. split; auto.
    unfold working in *. rewrite (re_act _ _ E) in W. auto. }
  specialize (U PL). destruct F as [|r r' l m E F]; auto.
  destruct U as (a & A & H & C0 & N & B & C). exists a. do 5 (split; auto). eapply (covers_same (r :: l)).
  - intros q Q. destruct (F1 q Q) as (q' & Q' & X). exists q'. split; auto. apply X.
  - intros q Q. destruct (F2 q Q) as (q' & Q' & X). exists q'. split; auto. symmetry. apply X.
  - exact C.
Qed.

Lemma united_perm l m o : Permutation l m -> united l o -> united m o.
Proof.
  intros P U K. assert (K' : forall r, In r l -> present r) by (intros r R; apply K; apply (Permutation_in r P R)).
  specialize (U K'). destruct l as [|r l].
  - apply Permutation_nil in P. subst. auto.
  - destruct m as [|q m]; [apply Permutation_sym, Permutation_nil in P; discriminate|].
    destruct U as (a & A & H & C0 & N & B & C). exists a. do 5 (split; auto). eapply (covers_same (r :: l)); [| |exact C].
    + intros x X. exists x. split; auto. apply (Permutation_in x P X).
    + intros x X. exists x. split; auto. apply (Permutation_in x (Permutation_sym P) X).
Qed.

(** ** Histories *)

Lemma new_set_united G rules stacking s : new_set G rules true stacking = Ok s -> united (s_rules s) (s_act s) /\ s_compute s = true.
Proof.
  destruct rules as [l|].
  - intros H. apply new_set_ok in H as (B & _). split; [|apply (bu_rest _ _ _ _ _ B)].
    eapply united_reindexed; [apply (bu_rules _ _ _ _ _ B)|]. apply (evaluate_self_united (with_rules (the_rules l) s)). apply (bu_act _ _ _ _ _ B).
  - unfold new_set. cbn. intros H. destruct (g_check G); cbn in H; injection H as <-; split; auto; intros _; left; auto.
Qed.

Lemma set_calc_united G xs s s' : united (s_rules s) (s_act s) -> s_compute s = true ->
  set_calc_activation G xs s = (Ok tt, s') -> united (s_rules s') (s_act s') /\ s_compute s' = true.
Proof.
  unfold set_calc_activation. intros U C H. destruct (s_rules s) as [|r t] eqn:R; [discriminate|].
  destruct (nrows xs =? 0)%nat; [injection H as <-; rewrite R; auto|]. clear U.
  apply chain_ok in H as (s1 & H1 & H). apply chain_ok in H as (s2 & H2 & H3).
  unfold for_each in H1. destruct (each _ _) as ([[]|] & rules); [|discriminate]. injection H1 as <-.
  apply use_ok in H2 as (o & H2 & E). injection E as <-. apply evaluate_self_united in H2. cbn in H2.
  assert (X : exists f, s' = with_stacked f (with_activation o (with_activation None (with_rules rules s)))).
  { cbn [s_stack with_activation with_rules] in H3. destruct (s_stack s).
    - apply use_ok in H3 as (f & _ & E). injection E as <-. eexists. reflexivity.
    - injection H3 as <-. exists (s_stacked s). auto. }
  destruct X as (f & ->). cbn. auto.
Qed.

Lemma add_rule_united G r s s' : united (s_rules s) (s_act s) /\ s_compute s = true -> add_rule G r s = (Ok tt, s') ->
  united (s_rules s') (s_act s') /\ s_compute s' = true.
Proof.
  intros (U & C) H. apply add_rule_ok in H. split; [|destruct (ad_rest _ _ _ _ H) as (_ & _ & _ & _ & _ & X); congruence].
  rewrite (ad_rules _ _ _ _ H). pose proof (ad_act _ _ _ _ H) as A. rewrite C in A.
  refine (united_update (s_rules s) [r] (s_act s) (r_act r) _ _ (s_act s') U _ _ A); [discriminate|]. clear A. intros P.
  assert (Pr : present r) by (apply P; left; auto). destruct (present_act _ Pr) as (a & Ra & Ha & Na & Ba).
  exists a. destruct (united_single r a (v_bits a)) as (Q1 & Q2 & Q3 & Q4); auto. destruct (available_vector r a) as (Q5 & Q6); auto. auto 8.
Qed.

Lemma add_set_united t s s' : united (s_rules s) (s_act s) /\ s_compute s = true -> united (s_rules t) (s_act t) ->
  add_set t s = (Ok tt, s') -> united (s_rules s') (s_act s') /\ s_compute s' = true.
Proof.
  intros (U & C) V H. apply add_set_ok in H. split; [|destruct (jo_rest _ _ _ H) as (_ & _ & _ & _ & _ & X); congruence].
  rewrite (jo_rules _ _ _ H). pose proof (jo_act _ _ _ H) as A. rewrite C in A.
  destruct (s_rules t) as [|r l] eqn:R.
  - rewrite app_nil_r. destruct A as [|v E|a b c E].
    + auto.
    + exfalso. destruct (united_empty _ V) as [K|(a & K & L)]; unfold set_available in E; rewrite K in E; [discriminate|].
      unfold alen in E. rewrite L in E. discriminate.
    + exfalso. destruct (united_empty _ V) as [K|(a' & K & L)]; unfold set_available in E; rewrite K in E; [discriminate|].
      unfold alen in E. rewrite L in E. discriminate.
  - rewrite <- R in *. refine (united_update (s_rules s) (s_rules t) (s_act s) (s_act t) _ _ (s_act s') U _ _ A); [rewrite R; discriminate|]. clear A. intros P.
    destruct (united_nonempty (s_rules t) (s_act t)) as (a & E & Q1 & Q0 & Q2 & Q3 & Q4); auto; [rewrite R; discriminate|].
    exists a. destruct (set_available_vector t a) as (Q5 & Q6); auto 8.
Qed.

Lemma made_united G mixed s : made G mixed s -> united (s_rules s) (s_act s) /\ s_compute s = true.
Proof.
  induction 1 as [l stack s H|s r s' M IH H|s r s' M IH H|s t s' M IH M' IH' X H|s r s' M IH H|s t s' M IH M' IH' H|s a b c s' M IH H
                 |s l s' M IH H|s xs s' M IH H|s c b s' M IH H].
  - eapply new_set_united; eauto.
  - apply append_true in H as (s1 & H & ->). apply (add_rule_united G r s s1 IH) in H. cbn. split; [apply H|auto].
  - eapply add_rule_united; eauto.
  - apply (add_set_united t s); auto. apply IH'.
  - unfold plus_rule in H. destruct IH as (_ & C). rewrite C in H. eapply new_set_united; eauto.
  - unfold plus_set in H. destruct (rule_set _ _) as [l|]; [|discriminate]. cbn [rbind] in H. destruct IH as (_ & C). rewrite C in H. eapply new_set_united; eauto.
  - unfold getitem_slice in H. destruct (slice_range _ _ _ _); [|discriminate]. cbn [rbind] in H. destruct (rseq _) in H; [|discriminate].
    cbn [rbind] in H. eapply new_set_united; eauto.
  - apply use_ok in H as (t & H & E). injection E as <-. cbn. split; [|apply IH]. eapply new_set_united; eauto.
  - destruct IH. eapply set_calc_united; eauto.
  - pose proof (set_sort_any G c b s) as (l & f & P & E & _). rewrite H in E. cbn in E. subst s'. cbn. split; [|apply IH].
    eapply united_perm; [exact P|]. apply IH.
Qed.

Lemma count_tally w : bits w -> tally (eq 1) w (List.length (filter (fun x => x =? 1) w)).
Proof.
  induction 1 as [|x l H F IH]; cbn; [constructor|]. destruct H as [->| -> ]; cbn; constructor; auto; lia.
Qed.

(** C41 *)
Lemma union_ok G mixed s : made G mixed s -> s_rules s <> [] -> (forall r, In r (s_rules s) -> present r) ->
  exists w q, set_vector s = Ok (Some w) /\ covers (s_rules s) w /\ bits w /\
    ruleset_coverage s = Ok (number (Fin q)) /\ fraction w q.
Proof.
  intros M N P. apply made_united in M as (U & _). destruct (united_nonempty _ _ N U P) as (a & A & H & C0 & Ne & B & C).
  destruct (set_available_vector s a A H Ne) as (V1 & V2).
  exists (v_bits a). eexists. split; auto. split; auto. split; auto. unfold ruleset_coverage. rewrite V1, A.
  unfold act_coverage. rewrite C0, (alen_nonempty a Ne). cbn [rmap]. split; [reflexivity|].
  eexists. split; [apply count_tally; auto|]. reflexivity.
Qed.

Lemma union_empty G mixed s : made G mixed s -> s_rules s = [] -> set_vector s = Ok None.
Proof.
  intros M N. apply made_united in M as (U & _). rewrite N in U. apply united_empty in U as [E|(a & E & F)]; unfold set_vector; rewrite E; auto.
  unfold alen. rewrite F. auto.
Qed.

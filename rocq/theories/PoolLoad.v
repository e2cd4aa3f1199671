(** load with several rulesets: the objects and the values. *)
From Coq Require Import List ZArith QArith Bool String Lia.
From Coq Require Import List.
From Verif Require Import Base Num CondModel ThrModel MetModel RuleModel PredModel SetModel SetSpec SetBase FitModel SerialModel PoolModel PoolSpec PoolBase PoolStep PoolFrames
  PoolLoadModel PoolLoadSpec.
Import ListNotations.
Open Scope string_scope.
Open Scope list_scope.
Open Scope Z_scope.

Lemma use_any {A B} (v : res A) (f : A -> ruleset -> res B * ruleset) s (P : ruleset -> Prop) : P s -> (forall a, P (snd (f a s))) -> P (snd (use v f s)).
Proof. destruct v; cbn; auto. Qed.

(** The attributes of the file leave the rules and the DataFrame. *)
Definition only_attributes (s s' : ruleset) : Prop := s_rules s' = s_rules s /\ s_stacked s' = s_stacked s /\ s_stack s' = s_stack s.

Lemma attributes_trans s1 s2 s3 : only_attributes s1 s2 -> only_attributes s2 s3 -> only_attributes s1 s3.
Proof. intros (A & B & C) (D & E & F). repeat split; congruence. Qed.

Lemma only_chain {A} s (m : res unit * ruleset) (f : ruleset -> res A * ruleset) : only_attributes s (snd m) ->
  (forall s1, only_attributes s1 (snd (f s1))) -> only_attributes s (snd (chain m f)).
Proof. destruct m as [[[]|e] s1]; cbn; intros A1 F; auto. eapply attributes_trans; eauto. Qed.

Lemma only_use {A B} (v : res A) (f : A -> ruleset -> res B * ruleset) s0 s : only_attributes s0 s -> (forall a, only_attributes s (snd (f a s))) ->
  only_attributes s0 (snd (use v f s)).
Proof. destruct v; cbn; intros A1 F; auto. eapply attributes_trans; eauto. Qed.

Lemma assigned_only set v s : (forall o s, only_attributes s (set o s)) -> only_attributes s (assigned set v s).
Proof. intros F. destruct v; cbn; auto. repeat split. Qed.

Lemma assign_size_only X set v s : (forall o s, only_attributes s (set o s)) -> only_attributes s (snd (assign_size X set v s)).
Proof.
  intros F. unfold assign_size. destruct v as [[[| |x|z|t|]| | | |]|]; try (cbn; auto; repeat split; fail).
  apply only_use; auto. intros z. cbn. auto.
Qed.

Lemma load_attributes_only X l s : only_attributes s (snd (load_attributes X l s)).
Proof.
  unfold load_attributes. apply only_use; [repeat split|]. intros v1.
  apply only_use; [apply assigned_only; repeat split|]. intros v2.
  apply only_use; [apply assigned_only; repeat split|]. intros v3.
  apply only_chain; [apply assign_size_only; repeat split|]. intros s1.
  apply only_use; [repeat split|]. intros v4.
  apply only_chain; [apply assign_size_only; repeat split|]. intros s2. repeat split.
Qed.

(** ** After the rules have been read *)

Lemma fill_still X s r r' : fill_sizes X s r = Ok r' -> still r r'.
Proof.
  assert (One : forall name v q q', fill_size X name v q = Ok q' -> still q q').
  { intros name v q q'. unfold fill_size. destruct (slot name q) as [[| |x|z|t|]| | | |]; intros E; try (injection E as <-; split; reflexivity).
    destruct (x_int X t); [|discriminate]. injection E as <-. split; reflexivity. }
  unfold fill_sizes. intros E. destruct (fill_size X "_train_set_size" (s_train s) r) as [r1|] eqn:E1; [|discriminate].
  cbn [rbind] in E. eapply still_trans; eauto.
Qed.

Lemma fill_all_still X s : forall l l', rseq (map (fill_sizes X s) l) = Ok l' -> Forall2 still l l'.
Proof.
  induction l as [|r l IH]; cbn; intros l' E; [injection E as <-; constructor|].
  destruct (fill_sizes X s r) as [r'|] eqn:E1; [|discriminate]. destruct (rseq (map (fill_sizes X s) l)) as [t|]; [|discriminate].
  injection E as <-. constructor; auto. eapply fill_still; eauto.
Qed.

Lemma fill_calm X s : calm s (snd (fill_rules X s)).
Proof.
  unfold fill_rules, use. destruct (rseq _) as [l|] eqn:E; cbn [snd done]; [|apply calm_refl].
  split; cbn; auto. eapply fill_all_still; eauto.
Qed.

Lemma first_type_only s : only_attributes s (first_type s).
Proof. unfold first_type. destruct (s_rules s) eqn:E; repeat split; auto. Qed.

Definition load_tail (X : texts) (G : setup) (s : ruleset) : res unit * ruleset := chain (fill_rules X s) (load_rest G).

Lemma rest_tracks X G p i h : ruleset_at p i h -> tracks p i h (pool_load_rest X G i p) (load_tail X G (view p h)).
Proof.
  intros A. unfold pool_load_rest, load_tail. apply tracks_unit; auto; [apply tracks_calm; auto; apply fill_calm|]. intros p1 h1 A1.
  change (load_rest G (view p1 h1)) with (chain (compute_self_activation None (first_type (view p1 h1))) (fun s =>
    chain (if s_stack s then compute_stacked_activation G None s else done s) gather_names)).
  apply tracks_unit; auto.
  { apply (tracks_calm p1 i h1 (fun s => compute_self_activation None (first_type s))); auto.
    destruct (first_type_only (view p1 h1)) as (F1 & F2 & _). eapply calm_trans; [|apply self_calm]. apply calm_attributes; auto. }
  intros p2 h2 A2. apply tracks_unit; auto.
  - apply (tracks_phase p2 i h2 s_stack (fun s => if s_stack s then compute_stacked_activation G None s else done s)); auto.
    + destruct (s_stack (view p2 h2)); [|apply stills_refl]. unfold compute_stacked_activation, use. destruct (evaluate_stacked_activations _ _ _); apply stills_refl.
    + destruct (s_stack (view p2 h2)) eqn:S; [|auto]. unfold compute_stacked_activation, use. destruct (evaluate_stacked_activations _ _ _); cbn [fst snd done]; [|auto].
      right. right. right. split; eauto.
  - intros p3 h3 A3. apply tracks_calm; auto. apply calm_use. intros a. apply calm_attributes; cbn; auto.
Qed.

(** ** load *)

Lemma taken_view p i ls rules s h : NoDup ls -> List.length rules = List.length ls -> s_stacked s = s_stacked (view p h) ->
  view (keep_set i ls (b_frame h) s (keep_rules ls rules p)) (mkHandle ls (b_frame h) s) = with_rules rules s.
Proof.
  intros D L S. unfold view. cbn [b_rules b_frame b_rest p_rules p_frames keep_set keep_rules]. rewrite put_all_same by auto.
  destruct s. cbn in *. subst. reflexivity.
Qed.

Lemma fresh_list p new n : new_objects p new -> NoDup (map new (seq 0 n)) /\ List.length (map new (seq 0 n)) = n /\
  (forall l, In l (map new (seq 0 n)) -> exists m, l = new m) /\
  (forall i h l, ruleset_at p i h -> In l (map new (seq 0 n)) -> ~ In l (b_rules h)).
Proof.
  intros (I & F). split; [|split; [|split]].
  - apply FinFun.Injective_map_NoDup; [exact I|apply seq_NoDup].
  - rewrite map_length, seq_length. auto.
  - intros l L. apply in_map_iff in L as (m & <- & _). eauto.
  - intros i h l A L. apply in_map_iff in L as (m & <- & _). eauto.
Qed.

(** From [h] to [h'], at [i], with the objects [new] for the rules if they change *)
Record loaded (p p' : pool) (new : nat -> nat) (i : nat) (h h' : handle) : Prop := mkLoaded {
  ld_rules : forall l, (forall n, l <> new n) -> p_rules p' l = p_rules p l;
  ld_frames : forall k, (k < p_next p)%nat -> p_frames p' k = p_frames p k;
  ld_next : (p_next p <= p_next p')%nat;
  ld_sets : p_sets p' = replace i h' (p_sets p);
  ld_frame : b_frame h' = b_frame h \/ newer p p' (b_frame h');
  ld_objects : forall l, In l (b_rules h') -> In l (b_rules h) \/ exists n, l = new n }.

Lemma load_step X G new i w p h : ruleset_at p i h -> new_objects p new ->
  exists h', loaded p (snd (pool_load X G new i w p)) new i h h' /\
    fst (pool_load X G new i w p) = fst (load X G w (view p h)) /\
    view (snd (pool_load X G new i w p)) h' = snd (load X G w (view p h)) /\
    (fst (pool_load X G new i w p) = Ok tt -> NoDup (b_rules h') /\ forall l, In l (b_rules h') -> exists n, l = new n).
Proof.
  intros A N. unfold pool_load, load, method. rewrite (proj2 (get_ok _ _ _) A). destruct (w_columns w) as [|c cs]; cbn [fst snd].
  { exists h. split; [constructor; auto; symmetry; apply replace_id; auto|]. repeat split; auto. discriminate. discriminate. }
  pose proof (load_attributes_only X (w_rows w) (view p h)) as (O1 & O2 & O3). destruct (load_attributes X (w_rows w) (view p h)) as [o s]. cbn [snd] in O1, O2, O3.
  assert (Same : forall e, exists h', loaded p (keep_set i (b_rules h) (b_frame h) s p) new i h h' /\ (Err e : res unit) = Err e /\
    view (keep_set i (b_rules h) (b_frame h) s p) h' = s /\ ((Err e : res unit) = Ok tt -> NoDup (b_rules h') /\ forall l, In l (b_rules h') -> exists n, l = new n)).
  { intros e. exists (mkHandle (b_rules h) (b_frame h) s). split; [constructor; cbn; auto|]. split; auto. split; [|discriminate].
    apply view_of; cbn in *; auto. }
  destruct o as [l|e]; cbn [rbind use fst snd]; [|apply (Same e)].
  unfold load_rules. destruct (rseq (map (fun row => series_to_rule X (g_env G) (combine (c :: cs) row)) l)) as [rules|e]; cbn [use chain fst snd]; [|apply (Same e)].
  destruct (fresh_list p new (List.length rules) N) as (D & L & M & F). set (ls := map new (seq 0 (List.length rules))) in *.
  set (p1 := keep_set i ls (b_frame h) s (keep_rules ls rules p)).
  assert (A1 : ruleset_at p1 i (mkHandle ls (b_frame h) s)) by (eapply at_kept; exact A).
  pose proof (taken_view p i ls rules s h D (eq_sym L) O2) as V. fold p1 in V.
  destruct (rest_tracks X G p1 i _ A1) as (h' & [P1 _ P3 P4 P5 P6 P7] & T). rewrite V in T. specialize (T D) as (T1 & T2 & T3).
  change (load_tail X G (with_rules rules s)) with
    (chain (use (rseq (map (fill_sizes X s) rules)) (fun rules s => done (with_rules rules s)) (with_rules rules s)) (load_rest G)) in T1, T2.
  exists h'. split; [|split; [exact T1|split; [exact T2|]]].
  - constructor; auto.
    + intros k K. assert (NI : ~ In k ls) by (intros I; destruct (M k I) as (n & ->); exact (K n eq_refl)).
      rewrite P1 by exact NI. cbn. apply put_all_other. exact NI.
    + rewrite P5. cbn. apply replace_twice.
  - intros _. split; [exact T3|]. intros k K. apply M, P6, K.
Qed.

Lemma load_at X G new i w p o p' h : pool_load X G new i w p = (o, p') -> ruleset_at p i h -> new_objects p new ->
  exists h', ruleset_at p' i h' /\ loaded p p' new i h h' /\ o = fst (load X G w (view p h)) /\ view p' h' = snd (load X G w (view p h)) /\
    (o = Ok tt -> NoDup (b_rules h') /\ forall l, In l (b_rules h') -> exists n, l = new n).
Proof.
  intros E A N. destruct (load_step X G new i w p h A N) as (h' & L & R). rewrite E in L, R. cbn [fst snd] in L, R. exists h'.
  split; [|tauto]. unfold ruleset_at in *. rewrite (ld_sets _ _ _ _ _ _ L). eapply replace_same; eauto.
Qed.

(** Without a ruleset [i] nothing happens. *)
Lemma load_nobody X G new i w p o p' : pool_load X G new i w p = (o, p') -> (forall h, ~ ruleset_at p i h) -> p' = p.
Proof.
  unfold pool_load, method. destruct (get p i) as [h|] eqn:E; intros Q N; [|congruence]. exfalso. apply (N h). apply get_ok; auto.
Qed.

(** ** Statements *)

Lemma load_acts (X : texts) (G : setup) (new : nat -> nat) (i : nat) (w : rows) (p p' : pool) (o o1 : res unit) (h : handle) (s' : ruleset) :
  pool_load X G new i w p = (o, p') -> ruleset_at p i h -> new_objects p new -> load X G w (view p h) = (o1, s') ->
  o = o1 /\ exists h', ruleset_at p' i h' /\ view p' h' = s'.
Proof. intros E A N V. destruct (load_at _ _ _ _ _ _ _ _ _ E A N) as (h' & B & _ & C & D & _). rewrite V in C, D. eauto. Qed.

Lemma load_others (X : texts) (G : setup) (new : nat -> nat) (i j : nat) (w : rows) (p p' : pool) (o : res unit) (g : handle) :
  pool_load X G new i w p = (o, p') -> in_use p -> new_objects p new -> i <> j -> ruleset_at p j g ->
  ruleset_at p' j g /\ view p' g = view p g.
Proof.
  intros E U N IJ J. destruct (nth_error (p_sets p) i) as [h|] eqn:A.
  - destruct (load_at _ _ _ _ _ _ _ _ _ E A N) as (h' & _ & [L1 L2 _ L4 _ _] & _). split; [unfold ruleset_at in *; rewrite L4, replace_other; auto|].
    apply view_same.
    + intros l I. apply L1. intros n ->. destruct N as (_ & N). exact (N n j g J I).
    + intros k K. apply L2. exact (U j g k J K).
  - rewrite (load_nobody _ _ _ _ _ _ _ _ E); auto. intros h B. unfold ruleset_at in B. congruence.
Qed.

Lemma load_objects (X : texts) (G : setup) (new : nat -> nat) (i : nat) (w : rows) (p p' : pool) (o : res unit) (l : nat) :
  pool_load X G new i w p = (o, p') -> new_objects p new -> (forall n, l <> new n) -> p_rules p' l = p_rules p l.
Proof.
  intros E N L. destruct (nth_error (p_sets p) i) as [h|] eqn:A.
  - destruct (load_at _ _ _ _ _ _ _ _ _ E A N) as (h' & _ & [L1 _ _ _ _ _] & _). auto.
  - rewrite (load_nobody _ _ _ _ _ _ _ _ E); auto. intros h B. unfold ruleset_at in B. congruence.
Qed.

Lemma load_own (X : texts) (G : setup) (new : nat -> nat) (i : nat) (w : rows) (p p' : pool) (h' : handle) :
  pool_load X G new i w p = (Ok tt, p') -> new_objects p new -> ruleset_at p' i h' ->
  NoDup (b_rules h') /\ forall j g l, i <> j -> ruleset_at p' j g -> In l (b_rules h') -> ~ In l (b_rules g).
Proof.
  intros E N B. destruct (nth_error (p_sets p) i) as [h|] eqn:A.
  - destruct (load_at _ _ _ _ _ _ _ _ _ E A N) as (h1 & B1 & [_ _ _ L4 _ _] & _ & _ & C). unfold ruleset_at in B, B1. rewrite B in B1. injection B1 as <-.
    destruct (C eq_refl) as (D & F). split; auto. intros j g l IJ J I K. unfold ruleset_at in J. rewrite L4, replace_other in J by auto.
    destruct (F l I) as (n & ->). destruct N as (_ & N). exact (N n j g J K).
  - exfalso. assert (p' = p) as -> by (eapply load_nobody; [exact E|intros h Q; unfold ruleset_at in Q; congruence]). unfold ruleset_at in B. congruence.
Qed.

(** ** The DataFrame *)

(** A step that leaves [stack_activation] *)
Lemma stack_phase {A} p i h fresh (f : ruleset -> res A * ruleset) : ruleset_at p i h -> s_stack (snd (f (view p h))) = s_stack (view p h) ->
  exists h', ruleset_at (snd (phase i fresh f p)) i h' /\ s_stack (view (snd (phase i fresh f p)) h') = s_stack (view p h).
Proof. intros A1 S. destruct (phase_frame p i h fresh f A1) as (h' & A2 & _ & R & _). exists h'. split; auto. cbn. rewrite R. exact S. Qed.

Lemma fill_stack X s : s_stack (snd (fill_rules X s)) = s_stack s /\ s_stacked (snd (fill_rules X s)) = s_stacked s.
Proof. unfold fill_rules, use. destruct (rseq _); auto. Qed.

Lemma typed_stack s : let s' := snd (compute_self_activation None (first_type s)) in s_stack s' = s_stack s /\ s_stacked s' = s_stacked s.
Proof.
  destruct (first_type_only s) as (_ & A & B). unfold compute_self_activation, use. destruct (evaluate_self_activation _ _); cbn; auto.
Qed.

Lemma gather_stacked s : s_stacked (snd (gather_names s)) = s_stacked s.
Proof. unfold gather_names, use. destruct (rseq _); auto. Qed.

Lemma rest_frame X G i p0 p h p' : in_use p -> (p_next p0 <= p_next p)%nat -> ruleset_at p i h -> pool_load_rest X G i p = (Ok tt, p') ->
  (s_stack (view p h) = true -> renewed i p0 p') /\ (s_stack (view p h) = false -> stays i h p').
Proof.
  intros U L A E. unfold pool_load_rest in E.
  apply then_ok in E as ([] & p1 & E1 & E). apply then_ok in E as ([] & p2 & E2 & E). apply then_ok in E as ([] & p3 & E3 & E4).
  destruct (fill_stack X (view p h)) as (S1 & T1). destruct (stack_phase p i h never (fill_rules X) A S1) as (h1 & A1 & K1).
  pose proof (phase_in_use i p never (fill_rules X) U) as U1. destruct (phase_frame p i h never (fill_rules X) A) as (_ & _ & _ & _ & _ & L1 & _).
  rewrite E1 in *. cbn [snd] in *.
  destruct (typed_stack (view p1 h1)) as (S2 & T2). set (f2 := fun s => compute_self_activation None (first_type s)) in *.
  destruct (stack_phase p1 i h1 never f2 A1 S2) as (h2 & A2 & K2). pose proof (phase_in_use i p1 never f2 U1) as U2.
  destruct (phase_frame p1 i h1 never f2 A1) as (_ & _ & _ & _ & _ & L2 & _).
  split; intros S.
  - rewrite E2 in *. cbn [snd] in *. assert (R : renewed i p0 p3).
    { eapply fresh_phase; [exact U2|exact A2| |cbv beta; rewrite K2, K1; exact S|exact E3]. lia. }
    replace p' with (snd (phase i never gather_names p3)) by (rewrite E4; reflexivity). apply renewed_phase. exact R.
  - destruct (stays_phase i h never (fill_rules X) p h A eq_refl eq_refl eq_refl T1) as (g1 & B1 & R1 & F1 & _). rewrite E1 in B1. cbn [snd] in B1.
    assert (g1 = h1) by (unfold ruleset_at in *; congruence). subst g1.
    destruct (stays_phase i h never f2 p1 h1 A1 R1 F1 eq_refl T2) as (g2 & B2 & R2 & F2 & _). rewrite E2 in *. cbn [snd] in *.
    assert (g2 = h2) by (unfold ruleset_at in *; congruence). subst g2.
    assert (Z : s_stack (view p2 h2) = false) by congruence.
    assert (T3 : s_stacked (snd ((fun s => if s_stack s then compute_stacked_activation G None s else done s) (view p2 h2))) = s_stacked (view p2 h2)) by (cbv beta; rewrite Z; auto).
    destruct (stays_phase i h s_stack (fun s => if s_stack s then compute_stacked_activation G None s else done s) p2 h2 A2 R2 F2 Z T3) as (h3 & A3 & R3 & F3 & _).
    rewrite E3 in A3. cbn [snd] in A3.
    destruct (stays_phase i h never gather_names p3 h3 A3 R3 F3 eq_refl (gather_stacked _)) as (h4 & A4 & R4 & F4 & _). rewrite E4 in A4. exists h4. auto.
Qed.

Lemma load_frames (X : texts) (G : setup) (new : nat -> nat) (i : nat) (w : rows) (p p' : pool) (h h' : handle) :
  pool_load X G new i w p = (Ok tt, p') -> in_use p -> ruleset_at p i h -> ruleset_at p' i h' ->
  (s_stack (view p h) = true -> forall k, b_frame h' = Some k -> (p_next p <= k)%nat) /\
  (s_stack (view p h) = false -> b_frame h' = b_frame h).
Proof.
  intros E U A B. unfold pool_load, method in E. rewrite (proj2 (get_ok _ _ _) A) in E. destruct (w_columns w) as [|c cs]; [discriminate|].
  pose proof (load_attributes_only X (w_rows w) (view p h)) as (_ & _ & O3). destruct (load_attributes X (w_rows w) (view p h)) as [o s]. cbn [snd] in O3.
  destruct (rbind o _) as [rules|]; [|discriminate]. cbv zeta in E. set (ls := map new (seq 0 (List.length rules))) in E.
  set (p1 := keep_set i ls (b_frame h) s (keep_rules ls rules p)) in E.
  assert (A1 : ruleset_at p1 i (mkHandle ls (b_frame h) s)) by (eapply at_kept; exact A).
  assert (U1 : in_use p1).
  { intros j g k J K. unfold p1, ruleset_at in J. cbn in J. cbn [p1 keep_set keep_rules p_next]. destruct (Nat.eq_dec i j) as [<-|N].
    - rewrite (replace_same _ _ _ _ A) in J. injection J as <-. exact (U i h k A K).
    - rewrite replace_other in J by auto. exact (U j g k J K). }
  destruct (rest_frame X G i p p1 _ p' U1 (Nat.le_refl _) A1 E) as (R1 & R2). change (s_stack (view p1 (mkHandle ls (b_frame h) s))) with (s_stack s) in R1, R2.
  rewrite O3 in R1, R2. split; intros S.
  - destruct (R1 S) as (h1 & B1 & N & _). assert (h1 = h') by (unfold ruleset_at in *; congruence). subst h1. intros k K.
    destruct N as [N|(k1 & N & L)]; [congruence|]. assert (k1 = k) by congruence. lia.
  - destruct (R2 S) as (h1 & B1 & _ & F). assert (h1 = h') by (unfold ruleset_at in *; congruence). subst h1. exact F.
Qed.

Lemma load_alone (X : texts) (G : setup) (new : nat -> nat) (i : nat) (w : rows) (p p' : pool) (h h' : handle) :
  pool_load X G new i w p = (Ok tt, p') -> in_use p -> new_objects p new -> ruleset_at p i h -> ruleset_at p' i h' ->
  s_stack (view p h) = true \/ b_frame h = None -> alone p' i h'.
Proof.
  intros E U N A B C j g IJ J. destruct (load_own _ _ _ _ _ _ _ _ E N B) as (_ & O). split; [intros l I; apply (O j g l); auto|].
  intros k K F. destruct (load_at _ _ _ _ _ _ _ _ _ E A N) as (h1 & _ & L & _). unfold ruleset_at in J. rewrite (ld_sets _ _ _ _ _ _ L), replace_other in J by auto.
  pose proof (U j g k J K) as LT. destruct (load_frames _ _ _ _ _ _ _ _ _ E U A B) as (F1 & F2).
  destruct (s_stack (view p h)); [specialize (F1 eq_refl k F); lia|]. rewrite (F2 eq_refl) in F. destruct C; congruence.
Qed.

Lemma load_keeps (X : texts) (G : setup) (new : nat -> nat) (i : nat) (w : rows) (p p' : pool) (o : res unit) :
  pool_load X G new i w p = (o, p') -> in_use p -> new_objects p new -> in_use p' /\ (separate p -> separate p').
Proof.
  intros E U N. destruct (nth_error (p_sets p) i) as [h|] eqn:A.
  2: { rewrite (load_nobody _ _ _ _ _ _ _ _ E); auto. intros h B. unfold ruleset_at in B. congruence. }
  destruct (load_at _ _ _ _ _ _ _ _ _ E A N) as (h' & B & [_ _ L3 L4 L5 _] & _).
  assert (At : forall j g, ruleset_at p' j g -> i = j /\ g = h' \/ i <> j /\ ruleset_at p j g).
  { intros j g J. destruct (Nat.eq_dec i j) as [<-|IJ]; [left; split; auto; unfold ruleset_at in *; congruence|right; split; auto].
    unfold ruleset_at in *. rewrite L4, replace_other in J; auto. }
  split.
  - intros j g k J K. destruct (At j g J) as [(<- & ->)|(IJ & J1)]; [|pose proof (U j g k J1 K); lia].
    destruct L5 as [L5|[L5|(k1 & L5 & L6)]]; [|congruence|assert (k1 = k) by congruence; lia]. rewrite L5 in K. pose proof (U i h k A K). lia.
  - intros S.
    assert (One : forall j g k, i <> j -> ruleset_at p j g -> b_frame h' = Some k -> b_frame g <> Some k).
    { intros j g k IJ J K Q. destruct L5 as [L5|[L5|(k1 & L5 & L6)]]; [|congruence|pose proof (U j g k J Q); assert (k1 = k) by congruence; lia].
      rewrite L5 in K. exact (S i j h g k A J IJ K Q). }
    intros a b ha hb k JA JB AB K Q. destruct (At a ha JA) as [(<- & ->)|(IA & JA1)]; destruct (At b hb JB) as [(<- & ->)|(IB & JB1)].
    + auto.
    + exact (One b hb k IB JB1 K Q).
    + exact (One a ha k IA JA1 Q K).
    + exact (S a b ha hb k JA1 JB1 AB K Q).
Qed.

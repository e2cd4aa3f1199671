(** Methods in several steps: fit, eval, sort and predict, on the objects and on the
    values. *)
From Coq Require Import List ZArith QArith Bool String Lia.
From Coq Require Import List.
From Verif Require Import Base Num CondModel ThrModel MetModel RuleModel PredModel SetModel SetSpec SetBase SetAdd SetEq FitModel SerialModel PoolModel PoolSpec PoolBase.
From Verif Require FitDrop.
Import ListNotations.
Open Scope string_scope.
Open Scope list_scope.
Open Scope Z_scope.

Lemma at_kept i ls f s p h : ruleset_at p i h -> ruleset_at (keep_set i ls f s p) i (mkHandle ls f s).
Proof. intros A. unfold ruleset_at, keep_set in *. cbn. eapply replace_same; eauto. Qed.

Lemma set_calc_length G xs s : List.length (s_rules (snd (set_calc_activation G xs s))) = List.length (s_rules s).
Proof. destruct (set_calc_any G xs s) as (F & _). symmetry. induction F; cbn; auto. Qed.

Lemma set_calc_same G xs s o s' : set_calc_activation G xs s = (o, s') ->
  s_stacked s' = s_stacked s \/ s_stacked s' = None \/ o = Ok tt /\ s_stack s = true /\ nrows xs <> 0%nat.
Proof.
  unfold set_calc_activation. destruct (s_rules s); [intros E; injection E as <- <-; auto|].
  destruct (nrows xs =? 0)%nat eqn:N; [intros E; injection E as <- <-; auto|]. apply Nat.eqb_neq in N.
  unfold for_each. destruct (each _ _) as [[[]|e] rules]; cbn [chain]; [|intros E; injection E as <- <-; auto].
  unfold compute_self_activation, use. destruct (evaluate_self_activation _ _); cbn [chain done]; [|intros E; injection E as <- <-; auto].
  cbn [s_stack with_activation with_rules]. destruct (s_stack s) eqn:S; [|intros E; injection E as <- <-; auto].
  unfold compute_stacked_activation, use. destruct (evaluate_stacked_activations _ _ _); intros E; injection E as <- <-; cbn; auto 10.
Qed.

(** What comes before the stacked activations leaves them. *)
Definition steady (s s1 : ruleset) : Prop := s_stacked s1 = s_stacked s /\ s_stack s1 = s_stack s.

Lemma chain_cases (m : res unit * ruleset) (f : ruleset -> res unit * ruleset) o s' : chain m f = (o, s') ->
  (exists e, m = (Err e, s') /\ o = Err e) \/ (exists s1, m = (Ok tt, s1) /\ f s1 = (o, s')).
Proof. destruct m as [[[]|e] s1]; cbn; intros E; [right; eauto|left; exists e]. injection E as <- <-. auto. Qed.

Lemma features_steady ind nam s o s' : add_features ind nam s = (o, s') -> steady s s'.
Proof.
  intros E. apply chain_cases in E as [(e & E & _)|(s1 & E1 & E)].
  - unfold use in E. destruct (rbind _ _); injection E; [discriminate|]. intros <- _. split; auto.
  - apply use_ok in E1 as (l & _ & E1). injection E1 as <-. unfold use in E. destruct (rbind _ _); injection E as _ <-; split; auto.
Qed.

Lemma activation_steady av vec act s o s' : update_activation av vec act s = (o, s') -> steady s s'.
Proof.
  unfold update_activation, use. intros E. destruct av; [|injection E as _ <-; split; auto].
  match type of E with match ?x with _ => _ end = _ => destruct x end; injection E as _ <-; split; auto.
Qed.

Lemma middle_steady ind nam av vec act (k : ruleset -> res unit * ruleset) s o s' :
  chain (add_features ind nam s) (fun s => chain (if s_compute s then update_activation av vec act s else done s) k) = (o, s') ->
  ((exists e, o = Err e) /\ steady s s') \/ exists s2, steady s s2 /\ k s2 = (o, s').
Proof.
  intros E. apply chain_cases in E as [(e & E & ->)|(s1 & E1 & E)]; [left; split; [eauto|eapply features_steady; eauto]|].
  apply features_steady in E1 as (F1 & F2).
  apply chain_cases in E as [(e & E & ->)|(s2 & E2 & E)]; [left; split; [eauto|]|right; exists s2; split; auto].
  - destruct (s_compute s1); [|injection E as; discriminate]. apply activation_steady in E as (G1 & G2). split; congruence.
  - destruct (s_compute s1); [apply activation_steady in E2 as (G1 & G2); split; congruence|]. injection E2 as <-. split; auto.
Qed.

Lemma stacked_some p h f : s_stacked (view p h) = Some f <-> exists k, b_frame h = Some k /\ p_frames p k = f.
Proof. cbn. destruct (b_frame h) as [k|]; cbn; split; [intros E; exists k; split; congruence|intros (k' & E & <-); congruence|discriminate|intros (k' & E & _); discriminate]. Qed.

Lemma stacked_none p h : s_stacked (view p h) = None <-> b_frame h = None.
Proof. cbn. destruct (b_frame h); cbn; split; congruence. Qed.


(** ** Steps *)

(** The class and the condition *)
Notation still := same_kind_condition.

Lemma still_refl r : still r r.
Proof. split; auto. Qed.

Lemma still_trans r1 r2 r3 : still r1 r2 -> still r2 r3 -> still r1 r3.
Proof. intros (A & B) (C & D). split; congruence. Qed.

Lemma stills_refl l : Forall2 still l l.
Proof. induction l; constructor; auto. apply still_refl. Qed.

Lemma stills_trans : forall l1 l2 l3, Forall2 still l1 l2 -> Forall2 still l2 l3 -> Forall2 still l1 l3.
Proof. intros l1 l2 l3 A. revert l3. induction A; intros l3 B; inversion B; subst; constructor; eauto using still_trans. Qed.

Lemma stills_length l m : Forall2 still l m -> List.length m = List.length l.
Proof. induction 1; cbn; auto. Qed.

Lemma put_all_still (heap : nat -> rule) : forall ls rules, Forall2 still (map heap ls) rules -> forall k, still (heap k) (put_all ls rules heap k).
Proof.
  induction ls as [|l ls IH]; intros rules F k; inversion F; subst; cbn [put_all]; [apply still_refl|].
  unfold put_at. destruct (Nat.eqb_spec k l); [subst; auto|auto].
Qed.

(** From [h] to [h'], at [i] *)
Record phased (p p' : pool) (i : nat) (h h' : handle) : Prop := mkPhased {
  ph_rules : forall l, ~ In l (b_rules h) -> p_rules p' l = p_rules p l;
  ph_still : forall l, still (p_rules p l) (p_rules p' l);
  ph_frames : forall k, (k < p_next p)%nat -> p_frames p' k = p_frames p k;
  ph_next : (p_next p <= p_next p')%nat;
  ph_sets : p_sets p' = replace i h' (p_sets p);
  ph_incl : incl (b_rules h') (b_rules h);
  ph_frame : b_frame h' = b_frame h \/ newer p p' (b_frame h') }.

Lemma replace_id {A} : forall i (x : A) l, nth_error l i = Some x -> replace i x l = l.
Proof. induction i as [|i IH]; intros x [|y l] E; cbn in *; try discriminate; [congruence|]. f_equal. auto. Qed.

Lemma replace_twice {A} : forall i (x y : A) l, replace i x (replace i y l) = replace i x l.
Proof. induction i as [|i IH]; intros x y [|z l]; cbn; auto. f_equal. auto. Qed.

Lemma phased_at p p' i h h' : ruleset_at p i h -> phased p p' i h h' -> ruleset_at p' i h'.
Proof. intros A [_ _ _ _ S _ _]. unfold ruleset_at in *. rewrite S. eapply replace_same; eauto. Qed.

Lemma phased_refl p i h : ruleset_at p i h -> phased p p i h h.
Proof. intros A. constructor; auto. - intros l. apply still_refl. - rewrite replace_id; auto. - apply incl_refl. Qed.

Lemma phased_trans p p1 p2 i h h1 h2 : phased p p1 i h h1 -> phased p1 p2 i h1 h2 -> phased p p2 i h h2.
Proof.
  intros [R1 C1 F1 N1 S1 I1 B1] [R2 C2 F2 N2 S2 I2 B2]. constructor.
  - intros l L. rewrite R2, R1; auto.
  - intros l. eapply still_trans; auto.
  - intros k K. rewrite F2, F1; auto. lia.
  - lia.
  - rewrite S2, S1. apply replace_twice.
  - eapply incl_tran; eauto.
  - destruct B2 as [B2|[B2|(k & B2 & K)]].
    + rewrite B2. destruct B1 as [B1|[B1|(k & B1 & K)]]; auto; right; [left; auto|]. right. exists k. split; auto. lia.
    + right. left. auto.
    + right. right. exists k. split; auto. lia.
Qed.

(** The objects follow the values. *)
Definition tracks {A} (p : pool) (i : nat) (h : handle) (m : res A * pool) (v : res A * ruleset) : Prop :=
  exists h', phased p (snd m) i h h' /\
    (NoDup (b_rules h) -> fst m = fst v /\ view (snd m) h' = snd v /\ NoDup (b_rules h')).

Lemma tracks_none {A} p i h (o : res A) : ruleset_at p i h -> tracks p i h (o, p) (o, view p h).
Proof. intros A1. exists h. split; [apply phased_refl; auto|]. auto. Qed.

Lemma tracks_then {A B} p i h (m : res A * pool) v (f : A -> pool -> res B * pool) g : ruleset_at p i h ->
  tracks p i h m v -> (forall a p1 h1, ruleset_at p1 i h1 -> tracks p1 i h1 (f a p1) (g a (view p1 h1))) ->
  tracks p i h (and_then m f) (next v g).
Proof.
  intros A1 (h1 & P & V) F. pose proof (phased_at _ _ _ _ _ A1 P) as A2. destruct m as [[a|e] p1]; cbn [and_then fst snd] in *.
  - destruct (F a p1 h1 A2) as (h2 & P2 & V2). exists h2. split; [eapply phased_trans; eauto|].
    intros D. destruct (V D) as (V1 & V3 & V4). destruct v as [o s]. cbn [fst snd] in *. subst o s. cbn [next]. auto.
  - exists h1. split; auto. intros D. destruct (V D) as (V1 & V3 & V4). destruct v as [o s]. cbn [fst snd] in *. subst o s. cbn [next fst snd]. auto.
Qed.

Lemma tracks_unit {B} p i h (m : res unit * pool) v (f : unit -> pool -> res B * pool) g : ruleset_at p i h ->
  tracks p i h m v -> (forall p1 h1, ruleset_at p1 i h1 -> tracks p1 i h1 (f tt p1) (g (view p1 h1))) ->
  tracks p i h (and_then m f) (chain v g).
Proof.
  intros A1 T F. replace (chain v g) with (next v (fun _ => g)) by (destruct v as [[]]; auto).
  apply tracks_then; auto. intros [] p1 h1. apply F.
Qed.

Lemma tracks_look {A} p i h (f : ruleset -> pool -> res A * pool) v : ruleset_at p i h ->
  tracks p i h (f (view p h) p) v -> tracks p i h (look i f p) v.
Proof. intros A1 T. unfold look. rewrite (proj2 (get_ok _ _ _) A1). auto. Qed.

Lemma tracks_phase {A} p i h fresh (f : ruleset -> res A * ruleset) : ruleset_at p i h ->
  Forall2 still (s_rules (view p h)) (s_rules (snd (f (view p h)))) ->
  (s_stacked (snd (f (view p h))) = None \/ s_stacked (snd (f (view p h))) = s_stacked (view p h) \/ s_stacked (view p h) = None \/
   (exists a, fst (f (view p h)) = Ok a) /\ fresh (view p h) = true) ->
  tracks p i h (phase i fresh f p) (f (view p h)).
Proof.
  intros A1 L F. unfold phase. rewrite (proj2 (get_ok _ _ _) A1). destruct (f (view p h)) as [o s'] eqn:Q. cbn [fst snd] in *.
  assert (V : NoDup (b_rules h) -> map (put_all (b_rules h) (s_rules s') (p_rules p)) (b_rules h) = s_rules s').
  { intros D. apply put_all_same; auto. rewrite (stills_length _ _ L). cbn. apply map_length. }
  pose proof (put_all_still (p_rules p) (b_rules h) (s_rules s') L) as C.
  assert (N : forall f0 k0 p0, s_stacked s' = Some f0 -> new_frame f0 (keep_rules (b_rules h) (s_rules s') p) = (k0, p0) ->
    tracks p i h (o, keep_set i (b_rules h) k0 s' p0) (o, s')).
  { intros f0 k0 p0 S E. injection E as <- <-. eexists. split; [constructor; cbn; try reflexivity|].
    - intros l I. apply put_all_other. auto.
    - exact C.
    - intros k K. apply put_other. lia.
    - lia.
    - apply incl_refl.
    - right. apply newer_next. auto.
    - intros D. cbn [fst snd]. split; auto. split; auto. apply view_of; cbn; auto. rewrite put_same. auto. }
  assert (K : forall k, k = b_frame h \/ k = None -> option_map (p_frames p) k = s_stacked s' ->
    tracks p i h (o, keep_set i (b_rules h) k s' (keep_rules (b_rules h) (s_rules s') p)) (o, s')).
  { intros k K1 K2. eexists. split; [constructor; cbn; try reflexivity; auto|].
    - intros l I. apply put_all_other. auto.
    - apply incl_refl.
    - destruct K1 as [-> | ->]; auto. right. left. auto.
    - intros D. cbn [fst snd]. split; auto. split; auto. apply view_of; cbn; auto. }
  unfold frame_after_step. destruct (s_stacked s') as [f0|] eqn:S; [|apply K; auto].
  destruct (b_frame h) as [k|] eqn:B.
  - assert (B1 : s_stacked (view p h) = Some (p_frames p k)) by (cbn; rewrite B; auto).
    assert (B2 : option_map (p_frames p) (Some k) = Some f0 \/ (exists a, o = Ok a) /\ fresh (view p h) = true).
    { destruct F as [F|[F|[F|F]]]; auto; [discriminate| |congruence]. left. rewrite F. symmetry. exact B1. }
    destruct o as [a|e].
    + destruct (fresh (view p h)) eqn:FR; [eapply N; [|reflexivity]; auto|]. apply K; auto.
      destruct B2 as [B2|(_ & B2)]; auto. congruence.
    + apply K; auto. destruct B2 as [B2|((a & B2) & _)]; auto. congruence.
  - eapply N; [|reflexivity]; auto.
Qed.

(** ** What the steps leave *)

(** The rules stay; the stacked activations are the same, or there are none. *)
Definition calm (s s' : ruleset) : Prop :=
  Forall2 still (s_rules s) (s_rules s') /\ (s_stacked s' = None \/ s_stacked s' = s_stacked s).

Lemma calm_refl s : calm s s.
Proof. split; auto. apply stills_refl. Qed.

Lemma calm_attributes s s' : s_rules s' = s_rules s -> s_stacked s' = None \/ s_stacked s' = s_stacked s -> calm s s'.
Proof. intros E F. split; auto. rewrite E. apply stills_refl. Qed.

Lemma calm_trans s s1 s2 : calm s s1 -> calm s1 s2 -> calm s s2.
Proof. intros (A & B) (C & D). split; [eapply stills_trans; eauto|]. destruct D as [D|D]; auto. rewrite D. auto. Qed.

Lemma tracks_calm {A} p i h (f : ruleset -> res A * ruleset) : ruleset_at p i h -> calm (view p h) (snd (f (view p h))) ->
  tracks p i h (phase i never f p) (f (view p h)).
Proof. intros A1 (C & D). apply tracks_phase; auto. destruct D; auto. Qed.

Lemma calm_use {A B} (v : res A) (f : A -> ruleset -> res B * ruleset) s : (forall a, calm s (snd (f a s))) -> calm s (snd (use v f s)).
Proof. intros F. destruct v; cbn; auto. apply calm_refl. Qed.

Lemma calm_next {A B} (m : res A * ruleset) (f : A -> ruleset -> res B * ruleset) s : calm s (snd m) ->
  (forall a s1, calm s s1 -> calm s1 (snd (f a s1))) -> calm s (snd (next m f)).
Proof. destruct m as [[a|e] s1]; cbn; intros C F; auto. eapply calm_trans; eauto. Qed.

Lemma calm_chain {B} (m : res unit * ruleset) (f : ruleset -> res B * ruleset) s : calm s (snd m) ->
  (forall s1, calm s s1 -> calm s1 (snd (f s1))) -> calm s (snd (chain m f)).
Proof. destruct m as [[a|e] s1]; cbn; intros C F; auto. eapply calm_trans; eauto. Qed.

Lemma assign_still E : forall attrs i r, still r (snd (assign E attrs i r)).
Proof.
  induction attrs as [|[a l] attrs IH]; intros i r; cbn [assign]; [apply still_refl|]. destruct (nth_error l i) as [[x v]|]; [|apply still_refl]. cbv zeta.
  set (r1 := put _ v r). assert (S1 : still r r1) by (split; reflexivity).
  assert (S2 : still r1 (snd (if r_good r1 then check_attribute E a r1 else (Ok tt, r1)))).
  { destruct (r_good r1); [apply (FitDrop.firm_check false)|apply still_refl]. }
  destruct (if r_good r1 then _ else _) as [[[]|e] r2]; cbn [snd] in S2 |- *; [|exact (still_trans _ _ _ S1 S2)].
  specialize (IH i r2). destruct (assign E attrs i r2) as [o r3]. cbn [snd] in IH |- *.
  eapply still_trans; [exact S1|]. eapply still_trans; [exact S2|exact IH].
Qed.

Lemma assign_rule_still E mark attrs i r : (forall q, still q (mark q)) -> still r (snd (assign_rule E mark attrs i r)).
Proof.
  intros M. unfold assign_rule. pose proof (assign_still E attrs i (mark r)) as S1. destruct (assign E attrs i (mark r)) as [[l|e] r1]; cbn [snd] in *;
    [|eapply still_trans; eauto]. assert (S2 : still r r1) by (eapply still_trans; eauto).
  destruct (r_good r1); auto. pose proof (FitDrop.firm_check_all false E r1) as (S3 & _). destruct (check_all E r1) as [o r2]. cbn [snd] in *.
  eapply still_trans; eauto.
Qed.

Lemma assign_rules_still E mark attrs : (forall q, still q (mark q)) -> forall rules i, Forall2 still rules (snd (assign_rules E mark attrs i rules)).
Proof.
  intros M. induction rules as [|r t IH]; intros i; cbn [assign_rules]; [constructor|].
  pose proof (assign_rule_still E mark attrs i r M) as S1. destruct (assign_rule E mark attrs i r) as [[l|e] r']; cbn [snd] in *;
    [|constructor; auto; apply stills_refl].
  specialize (IH (S i)). destruct (assign_rules E mark attrs (S i) t) as [o t']. cbn in *. constructor; auto.
Qed.

Lemma assign_all_calm E mark attrs s : (forall q, still q (mark q)) -> calm s (snd (assign_all E mark attrs s)).
Proof.
  intros M. unfold assign_all. pose proof (assign_rules_still E mark attrs M (s_rules s) 0) as L.
  destruct (assign_rules E mark attrs 0 (s_rules s)) as [o rules]. split; cbn in *; auto.
Qed.

Lemma for_each_calm f s : (forall r, still r (snd (f r))) -> calm s (snd (for_each f s)).
Proof.
  intros F. pose proof (each_keeps f still still_refl F (s_rules s)) as L.
  unfold for_each. destruct (each f (s_rules s)) as [o rules]. split; cbn in *; auto.
Qed.

Lemma self_calm xs s : calm s (snd (compute_self_activation xs s)).
Proof. apply calm_use. intros a. apply calm_attributes; cbn; auto. Qed.

Lemma clean_calm (b : bool) s : calm s (if b then del_stacked_activations s else s).
Proof. destruct b; apply calm_attributes; cbn; auto. Qed.

Lemma fit_assign_calm G k y series clean kw s : calm s (snd (fit_assign G k y series clean kw s)).
Proof. apply calm_use. intros a. eapply calm_trans; [apply clean_calm|apply assign_all_calm; split; reflexivity]. Qed.

Lemma eval_assign_calm G k y clean kw f s : calm s (snd (eval_assign G k y clean kw f s)).
Proof. apply calm_use. intros a. eapply calm_trans; [apply clean_calm|apply assign_all_calm; split; reflexivity]. Qed.

Lemma fit_alone_calm G k y series xs force kw s : g_stacked G = false -> calm s (snd (fit_rules G k y series xs force kw s)).
Proof. intros St. unfold fit_rules. rewrite St. apply calm_chain; [apply for_each_calm; intros r; apply (FitDrop.firm_fit false); auto|]. intros s1 _. apply calm_refl. Qed.

Lemma eval_alone_calm G k y xs keep_new force kw s : g_stacked G = false -> calm s (snd (eval_rules G k y xs keep_new force kw s)).
Proof. intros St. unfold eval_rules. rewrite St. apply calm_chain; [apply for_each_calm; intros r; apply (FitDrop.firm_eval false); auto|]. intros s1 _. apply calm_refl. Qed.

Lemma overwrite_still count : forall rules, Forall2 still rules (overwrite_first count rules).
Proof.
  induction rules as [|r t IH]; cbn [overwrite_first]; [constructor|].
  destruct (PredModel.usable None r) as [[v|]|]; try (constructor; [apply still_refl|auto]).
  destruct (r_act r); (constructor; [split; reflexivity|auto]). apply stills_refl.
Qed.

Lemma predict_calm G xs w s : calm s (snd (set_predict G xs w s)).
Proof.
  unfold set_predict. pose proof (stills_refl (s_rules s)) as Z.
  assert (L : Forall2 still (s_rules s) (snd (predict_rules (g_env G) (g_stacked G) (g_shared G) (s_type s) (s_rules s) (s_stacked s) xs w))).
  { unfold predict_rules. destruct (s_rules s) as [|r l]; auto. destruct (s_type s) as [k|]; auto.
    destruct (if g_stacked G then s_stacked s else None); auto. unfold predict_unstacked. cbv zeta.
    destruct w; auto. destruct k; auto. unfold equal_regressor_unstacked.
    destruct (equal_loop xs (r :: l) None) as [o [(cum & count)|]]; auto. destruct (g_shared G && _); auto. cbn [snd]. apply overwrite_still. }
  destruct (predict_rules _ _ _ _ _ _ _ _) as [o rules]. split; cbn in *; auto.
Qed.

Lemma criterion_calm G y xs w kw s : calm s (snd (calc_criterion G y xs w kw s)).
Proof.
  unfold calc_criterion. destruct (s_rules s) as [|r l]; [apply calm_refl|]. destruct (s_type s) as [k|]; [|apply calm_refl].
  apply calm_next; [apply predict_calm|]. intros a s1 _. destruct (is_nothing a); [apply calm_attributes; cbn; auto|].
  destruct k, a; try apply calm_refl.
  - apply calm_use. intros m. apply calm_attributes; cbn; auto.
  - apply calm_next.
    + unfold criterion_activation. destruct xs; [apply calm_use; intros; apply calm_refl|].
      apply calm_chain; [destruct (no_activation s1); [apply self_calm|apply calm_refl]|]. intros s2 _. apply calm_refl.
    + intros o s2 _. apply calm_use. intros m. apply calm_attributes; cbn; auto.
Qed.

(** ** Steps that compute the stacked activations *)

Definition ready {A} (s : ruleset) (o : res A) (s' : ruleset) (fresh : bool) : Prop :=
  Forall2 still (s_rules s) (s_rules s') /\
  (s_stacked s' = None \/ s_stacked s' = s_stacked s \/ s_stacked s = None \/ (exists a, o = Ok a) /\ fresh = true).

Lemma tracks_ready {A} p i h (fresh : ruleset -> bool) (f : ruleset -> res A * ruleset) : ruleset_at p i h ->
  ready (view p h) (fst (f (view p h))) (snd (f (view p h))) (fresh (view p h)) -> tracks p i h (phase i fresh f p) (f (view p h)).
Proof. intros A1 (L & F). apply tracks_phase; auto. Qed.

Lemma stacking_ready (f : ruleset -> res unit * ruleset) s fresh : (let (o, s') := f (with_stack true s) in ready s o s' fresh) ->
  ready s (fst (while_stacking f s)) (snd (while_stacking f s)) fresh.
Proof.
  unfold while_stacking. destruct (f (with_stack true s)) as [[[]|e] s']; cbn [chain done fst snd]; intros (L & F); split; auto using stills_refl.
Qed.

Lemma calc_ready G t s : ready s (fst (set_calc_activation G t s)) (snd (set_calc_activation G t s)) true.
Proof.
  split; [apply set_calc_any|]. destruct (set_calc_activation G t s) as [o s'] eqn:E. cbn [fst snd].
  destruct (set_calc_same _ _ _ _ _ E) as [W|[W|(-> & _)]]; eauto 10.
Qed.

Lemma calc_stacking_ready G t s : ready s (fst (while_stacking (set_calc_activation G t) s)) (snd (while_stacking (set_calc_activation G t) s)) true.
Proof.
  apply stacking_ready. pose proof (calc_ready G t (with_stack true s)) as (L & F).
  destruct (set_calc_activation G t (with_stack true s)) as [o s']. cbn [fst snd] in *. split; auto using stills_refl.
Qed.

Lemma fit_activations_ready G xs s : ready s (fst (fit_activations G xs s)) (snd (fit_activations G xs s)) (given xs || not_stacked s).
Proof.
  unfold fit_activations. destruct xs as [t|]; cbn [given orb].
  - apply calc_stacking_ready.
  - unfold not_stacked. destruct (s_stacked s) eqn:S; cbn [done fst snd]; [split; auto using stills_refl|].
    apply stacking_ready. unfold compute_stacked_activation, use. destruct (evaluate_stacked_activations _ _ _); split; cbn; auto using stills_refl.
Qed.

Lemma eval_activations_ready G xs keep_new s : ready s (fst (eval_activations G xs keep_new s)) (snd (eval_activations G xs keep_new s))
  (if given xs then keep_new else not_stacked s).
Proof.
  unfold eval_activations. destruct xs as [t|]; cbn [given].
  - destruct keep_new.
    + pose proof (calc_stacking_ready G t s) as (L & F). destruct (while_stacking _ s) as [[[]|e] s']; cbn [chain fst snd] in *; split; auto using stills_refl;
      destruct F as [F|[F|[F|((? & F) & _)]]]; try discriminate; eauto 10.
    + unfold use. destruct (evaluate_stacked_activations G (Some t) s); [|split; auto using stills_refl].
      destruct (evaluate_self_activation (Some t) s); split; auto using stills_refl.
  - destruct (not_stacked s) eqn:NS; [|cbn [chain done fst snd]; split; auto using stills_refl].
    assert (S : s_stacked s = None) by (unfold not_stacked in NS; destruct (s_stacked s); congruence).
    match goal with |- context [chain ?m _] => assert (R : ready s (fst m) (snd m) true) end.
    { apply stacking_ready. unfold compute_stacked_activation at 1, use. destruct (evaluate_stacked_activations G None (with_stack true s)) as [f|e]; cbn [chain done].
      - unfold compute_self_activation, use. destruct (evaluate_self_activation None _) as [a|e]; cbn [chain done]; [|split; cbn; auto using stills_refl].
        destruct (not_stacked (with_activation _ _)); split; cbn; auto using stills_refl.
      - split; cbn; auto using stills_refl. }
    destruct R as (R1 & R2). destruct (while_stacking _ s) as [[[]|e] s']; cbn [chain fst snd] in *; split; auto using stills_refl.
Qed.

(** ** The end of fit and eval *)

Lemma tracks_refresh G p i h act stacked : ruleset_at p i h ->
  tracks p i h (pool_refresh G i act stacked p) (refresh G act stacked (view p h)).
Proof.
  intros A. unfold pool_refresh, refresh. apply tracks_unit; auto.
  - apply (tracks_calm p i h (fun s => if act then compute_self_activation None (with_activation None s) else done s)); auto.
    destruct act; [|apply calm_refl]. eapply calm_trans; [|apply self_calm]. apply calm_attributes; cbn; auto.
  - intros p1 h1 A1.
    apply (tracks_ready p1 i h1 (fun s => s_stack s && stacked s)
      (fun s => if s_stack s && stacked s then compute_stacked_activation G None (with_stacked None s) else done s)); auto.
    destruct (s_stack (view p1 h1) && stacked (view p1 h1)); [|split; cbn; auto using stills_refl].
    unfold compute_stacked_activation, use. destruct (evaluate_stacked_activations _ _ _); split; cbn [fst snd s_rules s_stacked with_stacked done]; eauto 10 using stills_refl.
Qed.

(** Dropping rules *)

Lemma rseq_map_rmap {A B C} (f : A -> res B) (g : B -> C) : forall l, rseq (map (fun a => rmap g (f a)) l) = rmap (map g) (rseq (map f l)).
Proof. induction l as [|a l IH]; cbn; auto. rewrite IH. destruct (f a); cbn; auto. destruct (rseq (map f l)); auto. Qed.

Lemma among_same H heap ls i l drop : NoDup ls -> nth_error ls i = Some l ->
  among H i (heap l) (numbers_rules (map heap ls) drop) = among_objects H heap l (objects_at ls drop).
Proof.
  intros D E. induction drop as [|n drop IH]; cbn; auto. rewrite nth_error_map. destruct (nth_error ls n) as [d|] eqn:N; cbn; auto.
  destruct (Nat.eqb_spec i n) as [->|X].
  - assert (l = d) by congruence. subst d. rewrite Nat.eqb_refl. auto.
  - destruct (Nat.eqb_spec l d) as [->|Y].
    + exfalso. apply X. apply (proj1 (NoDup_nth_error ls) D); [apply nth_error_Some; congruence|congruence].
    + destruct (rule_eq H (heap d) (heap l)) as [[]|]; cbn; auto.
Qed.

Lemma numbered_from {A B} (f : nat * A -> B) (g : A -> B) : forall (l : list A) k,
  (forall i a, nth_error l i = Some a -> f ((k + i)%nat, a) = g a) -> map f (combine (seq k (List.length l)) l) = map g l.
Proof.
  induction l as [|a l IH]; intros k F; cbn; auto. f_equal.
  - rewrite <- (F O a eq_refl). rewrite Nat.add_0_r. auto.
  - apply IH. intros i b N. specialize (F (S i) b N). rewrite Nat.add_succ_r in F. exact F.
Qed.

Lemma combine_map_r {A B C} (f : B -> C) : forall (x : list A) (y : list B), combine x (map f y) = map (fun q => (fst q, f (snd q))) (combine x y).
Proof. induction x as [|a x IH]; intros [|b y]; cbn; auto. f_equal. auto. Qed.

Lemma kept_same H heap ls drop : NoDup ls ->
  keep H (map heap ls) (numbers_rules (map heap ls) drop) = rmap (map heap) (kept_objects H heap ls (objects_at ls drop)).
Proof.
  intros D. unfold keep, kept_objects, numbered. rewrite map_length, combine_map_r, map_map. cbn [fst snd].
  rewrite (numbered_from _ (fun l => rmap (fun q => (fst q, heap (snd q))) (rmap (fun b => (b, l)) (among_objects H heap l (objects_at ls drop)))) ls 0).
  - rewrite rseq_map_rmap. destruct (rseq (map _ ls)) as [m|]; cbn; auto. f_equal.
    induction m as [|[b l] m IH]; cbn; auto. destruct b; cbn; auto. f_equal. auto.
  - intros i l E. cbn. rewrite (among_same H heap ls i l drop); auto. destruct (among_objects _ _ _ _); auto.
Qed.

Lemma kept_incl H heap ls drop ls' : kept_objects H heap ls drop = Ok ls' -> incl ls' ls /\ (NoDup ls -> NoDup ls').
Proof.
  unfold kept_objects. destruct (rseq _) as [m|] eqn:E; [|discriminate]. cbn. intros Q. injection Q as <-.
  apply rseq_map_ok in E. assert (S : map snd m = ls).
  { induction E as [|l q ls m E1 E2 IH]; cbn; auto. f_equal; auto. destruct (among_objects H heap l drop); [|discriminate]. injection E1 as <-. auto. }
  subst ls. clear E. split.
  - intros l I. apply in_map_iff in I as (q & <- & I). apply filter_In in I as (I & _). apply in_map. auto.
  - induction m as [|q m IH]; cbn; auto. intros D. inversion D; subst. destruct (negb (fst q)); cbn; auto. constructor; auto.
    intros I. apply H2. apply in_map_iff in I as (q' & E & I). apply filter_In in I as (I & _). rewrite <- E. apply in_map. auto.
Qed.

Lemma append_quiet G r s : let s' := snd (append G (ERule r) false s) in
  (s_rules s' = s_rules s \/ s_rules s' = s_rules s ++ [r]) /\ s_stacked s' = s_stacked s /\
  (fst (append G (ERule r) false s) = Ok tt -> s_rules s' = s_rules s ++ [r]).
Proof.
  cbv zeta. unfold append. set (s1 := with_stack false (with_compute false s)).
  destruct (add_rule G r s1) as [o s2] eqn:E. cbn [chain].
  assert (R : (s_rules s2 = s_rules s \/ s_rules s2 = s_rules s ++ [r]) /\ (o = Ok tt -> s_rules s2 = s_rules s ++ [r])).
  { destruct (add_rule_any G r s1) as [(t & _ & _ & W)|(_ & K & _)]; rewrite E in *.
    - injection W as -> ->. split; [auto|discriminate].
    - cbn [snd] in K. split; auto. }
  assert (S : s_stacked s2 = s_stacked s).
  { unfold add_rule in E.
    assert (T : forall s3, steady s1 s3 ->
      chain (add_features (rule_indexes r) (rule_names r) (with_rules (s_rules s3 ++ [r]) s3)) (fun s =>
      chain (if s_compute s then update_activation (activation_available r) (activation_vector r) (r_act r) s else done s) (fun s =>
      if s_stack s then update_stacked_rule G r s else done s)) = (o, s2) -> s_stacked s2 = s_stacked s).
    { intros s3 (D1 & D2) E1. apply middle_steady in E1 as [(_ & (D3 & D4))|(s4 & (D3 & D4) & E1)]; cbn [s_stacked s_stack with_rules] in D3, D4.
      - rewrite D3, D1. auto.
      - rewrite D4, D2 in E1. cbn in E1. injection E1 as _ <-. rewrite D3, D1. auto. }
    destruct (s_type s1) as [t|]; cbn [chain done] in E.
    - destruct (isinstance (r_kind r) t); cbn [chain done] in E; [apply (T s1); [split|]; auto|]. injection E as _ <-. auto.
    - apply (T (with_type (Some (r_kind r)) s1)); [split|]; auto. }
  destruct o as [[]|e]; cbn [fst snd done s_rules s_stacked with_stack with_compute]; destruct R as (R1 & R2); repeat split; auto; discriminate.
Qed.

Lemma append_all_quiet G : forall l s, let s' := snd (append_all G (map ERule l) s) in
  (exists n, s_rules s' = s_rules s ++ firstn n l) /\ s_stacked s' = s_stacked s.
Proof.
  induction l as [|r l IH]; intros s; cbn [map append_all].
  - cbn. split; auto. exists O. rewrite app_nil_r. auto.
  - destruct (append_quiet G r s) as (Q1 & Q2 & Q3). destruct (append G (ERule r) false s) as [[[]|e] s1]; cbn [fst snd chain] in *.
    + destruct (IH s1) as ((n & I1) & I2). split; [|congruence]. exists (S n). rewrite I1, Q3 by auto. cbn. rewrite <- app_assoc. auto.
    + split; auto. destruct Q1 as [Q1|Q1]; [exists O|exists 1%nat]; cbn; rewrite Q1; auto. rewrite app_nil_r. auto.
Qed.

Lemma firstn_self {A} n (l : list A) : firstn (List.length (firstn n l)) l = firstn n l.
Proof. revert l. induction n as [|n IH]; intros [|x l]; cbn; auto. f_equal. auto. Qed.

Lemma firstn_incl {A} n (l : list A) : incl (firstn n l) l /\ (NoDup l -> NoDup (firstn n l)).
Proof.
  revert n. induction l as [|x l IH]; intros [|n]; cbn.
  - split; auto. apply incl_refl.
  - split; auto. apply incl_refl.
  - split; [intros y []|constructor].
  - destruct (IH n) as (I & D). split; [intros y [->|Y]; cbn; auto|]. intros N. inversion N; subst. constructor; auto.
Qed.

Lemma rebuild_quiet G l s : let s' := snd (rebuild G l s) in
  firstn (List.length (s_rules s')) l = s_rules s' /\ s_stacked s' = None.
Proof.
  cbv zeta. unfold rebuild. destruct (append_all_quiet G l (del_stacked_activations (cleared (with_rules [] s)))) as ((n & Q1) & Q2).
  rewrite Q1, Q2. unfold cleared. destruct (s_act _); cbn [s_rules del_stacked_activations with_stacked with_activation with_rules app s_stacked];
    split; auto; apply firstn_self.
Qed.

Lemma tracks_drop G p i h drop : ruleset_at p i h ->
  tracks p i h (pool_drop G i drop p) (drop_rules G (numbers_rules (s_rules (view p h)) drop) (view p h)).
Proof.
  intros A. unfold pool_drop, method, drop_rules. rewrite (proj2 (get_ok _ _ _) A).
  destruct (kept_objects (g_hash G) (p_rules p) (b_rules h) (objects_at (b_rules h) drop)) as [ls|e] eqn:K.
  - destruct (kept_incl _ _ _ _ _ K) as (I & D).
    destruct (rebuild G (map (p_rules p) ls) (view p h)) as [o s'] eqn:Q. 
    pose proof (rebuild_quiet G (map (p_rules p) ls) (view p h)) as (R1 & R2). rewrite Q in R1, R2. cbn [snd] in R1, R2.
    destruct (firstn_incl (List.length (s_rules s')) ls) as (F1 & F2).
    eexists. split; [constructor; cbn; try reflexivity; auto using still_refl|].
    + eapply incl_tran; eauto.
    + right. left. auto.
    + intros N. cbn [fst snd]. change (s_rules (view p h)) with (map (p_rules p) (b_rules h)). rewrite kept_same, K by auto. cbn [rmap use].
      rewrite Q. cbn [fst snd]. split; auto. split; [|auto]. apply view_of; cbn; auto. rewrite <- firstn_map. exact R1.
  - exists h. split; [apply phased_refl; auto|]. intros N. cbn [fst snd].
    change (s_rules (view p h)) with (map (p_rules p) (b_rules h)). rewrite kept_same, K by auto. cbn. auto.
Qed.

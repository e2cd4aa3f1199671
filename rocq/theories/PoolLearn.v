From Coq Require Import List ZArith QArith Bool String Permutation Lia.
From Coq Require Import List.
From Verif Require Import Base Num CondModel CondBase ThrModel MetModel RuleModel PredModel SetModel SetSpec SetBase SetAdd SetEq SetSort FitModel SerialModel PoolModel PoolSpec PoolBase PoolStep.
Import ListNotations.
Open Scope string_scope.
Open Scope list_scope.
Open Scope Z_scope.

(** ** The order of the objects and the order of their rules *)

Definition on_object {K A B} (f : A -> B) (q : K * A) : K * B := (fst q, f (snd q)).

Lemma insert_objects {K A B} (lt : K -> K -> bool) (f : A -> B) x : forall l,
  insert (first_lt lt) (on_object f x) (map (on_object f) l) = map (on_object f) (insert (first_lt lt) x l).
Proof.
  induction l as [|y l IH]; cbn; auto. unfold first_lt at 1 3. cbn [fst on_object]. destruct (lt (fst y) (fst x)); cbn; auto. f_equal. auto.
Qed.

Lemma sorted_objects {K A B} (lt : K -> K -> bool) (f : A -> B) : forall l,
  sorted (first_lt lt) (map (on_object f) l) = map (on_object f) (sorted (first_lt lt) l).
Proof. induction l as [|x l IH]; cbn; auto. rewrite IH. apply insert_objects. Qed.

Lemma snd_objects {K A B} (f : A -> B) (l : list (K * A)) : map snd (map (on_object f) l) = map f (map snd l).
Proof. rewrite !map_map. auto. Qed.

Lemma rbind_rmap {A B C} (m : res A) (f : A -> B) (g : B -> res C) : rbind (rmap f m) g = rbind m (fun a => g (f a)).
Proof. destruct m; auto. Qed.

Lemma rmap_rbind {A B C} (m : res A) (f : A -> res B) (g : B -> C) : rmap g (rbind m f) = rbind m (fun a => rmap g (f a)).
Proof. destruct m; auto. Qed.

Lemma rbind_ext {A B} (m : res A) (f g : A -> res B) : (forall a, f a = g a) -> rbind m f = rbind m g.
Proof. intros E. destruct m; cbn; auto. Qed.

Lemma rseq_ext {A B} (f g : A -> res B) l : (forall a, f a = g a) -> rseq (map f l) = rseq (map g l).
Proof. intros E. f_equal. apply map_ext. auto. Qed.

Lemma group_objects {T A B K} (f : A -> B) (pick : T -> bool) : forall (texts : list T) (keyed : list (K * A)),
  map snd (filter (fun q => pick (fst q)) (combine texts (map (on_object f) keyed))) =
  map (on_object f) (map snd (filter (fun q => pick (fst q)) (combine texts keyed))).
Proof.
  induction texts as [|t texts IH]; intros [|k keyed]; cbn; auto. destruct (pick t); cbn; rewrite IH; auto.
Qed.

Lemma flat_map_map {A B C} (f : A -> list B) (g : B -> C) l : map g (flat_map f l) = flat_map (fun a => map g (f a)) l.
Proof. induction l; cbn; auto. rewrite map_app. congruence. Qed.

Lemma by_features_same G (heap : nat -> rule) reverse ls s : s_rules s = map heap ls ->
  sort_by_features G reverse s = rmap (map heap) (objects_by_features G heap (uses_names s) reverse ls).
Proof.
  intros R. unfold sort_by_features, objects_by_features. rewrite R, map_map, rmap_rbind. apply rbind_ext. intros texts. cbv zeta.
  rewrite rmap_rbind. apply rbind_ext. intros sized. destruct (negb _); auto.
  rewrite map_map, rmap_rbind.
  rewrite (rseq_ext _ (fun l => rmap (on_object heap) (rmap (fun b => (b, l)) (bounds_of (heap l))))) by (intros l; destruct (bounds_of (heap l)); auto).
  rewrite rseq_map_rmap, rbind_rmap. apply rbind_ext. intros keyed. cbn [rmap]. f_equal. rewrite flat_map_map. apply flat_map_ext. intros t.
  rewrite (group_objects heap (fun q => str_eqb t (fst q)) texts keyed), sorted_objects, snd_objects. auto.
Qed.

Lemma by_attribute_same (heap : nat -> rule) name reverse ls :
  sort_by_attribute name reverse (map heap ls) = rmap (map heap) (objects_by_attribute heap name reverse ls).
Proof.
  unfold sort_by_attribute, objects_by_attribute. rewrite map_map, rmap_rbind.
  rewrite (rseq_ext _ (fun l => rmap (on_object heap) (rmap (fun v => (v, l)) (getattr (heap l) name)))) by (intros l; destruct (getattr (heap l) name); auto).
  rewrite rseq_map_rmap, rbind_rmap. apply rbind_ext. intros keyed.
  destruct keyed as [|k1 [|k2 keyed]]; auto. set (ks := k1 :: k2 :: keyed).
  change (map (on_object heap) ks) with (on_object heap k1 :: on_object heap k2 :: map (on_object heap) keyed). cbv iota.
  change (on_object heap k1 :: on_object heap k2 :: map (on_object heap) keyed) with (map (on_object heap) ks). subst ks.
  set (ks := k1 :: k2 :: keyed).
  replace (existsb (fun q : obj * rule => match fst q with OVal _ => false | _ => true end) (map (on_object heap) ks))
    with (existsb (fun q : obj * nat => match fst q with OVal _ => false | _ => true end) ks).
  2:{ generalize ks. intros m. induction m as [|q m IH]; cbn; auto. rewrite IH. auto. }
  destruct (existsb _ ks); auto. rewrite !map_map.
  rewrite (rseq_ext (fun q : obj * nat => match fst (on_object heap q) with OVal (XNum x) => Ok (x, snd (on_object heap q)) | _ => Err EType end)
    (fun q => rmap (on_object heap) (match fst q with OVal (XNum x) => Ok (x, snd q) | _ => Err EType end)))
    by (intros (o, l); cbn; destruct o as [[]| | | |]; auto).
  rewrite (rseq_ext (fun q : obj * nat => match fst (on_object heap q) with OVal (XText t) => Ok (t, snd (on_object heap q)) | _ => Err EType end)
    (fun q => rmap (on_object heap) (match fst q with OVal (XText t) => Ok (t, snd q) | _ => Err EType end)))
    by (intros (o, l); cbn; destruct o as [[]| | | |]; auto).
  rewrite !rseq_map_rmap.
  destruct (rseq (map (fun q : obj * nat => match fst q with OVal (XNum x) => Ok (x, snd q) | _ => Err EType end) ks)) as [m|]; cbn [rmap].
  - f_equal. rewrite sorted_objects, snd_objects. auto.
  - destruct (rseq _) as [m|]; cbn [rmap]; auto. f_equal. rewrite sorted_objects, snd_objects. auto.
Qed.

Lemma by_features_perm G (heap : nat -> rule) by_name reverse ls l : objects_by_features G heap by_name reverse ls = Ok l -> Permutation ls l.
Proof.
  unfold objects_by_features. intros H.
  destruct (rseq (map (fun l => feature_text G by_name (heap l)) ls)) as [texts|] eqn:E1; [|discriminate]. cbn [rbind] in H.
  destruct (rseq _) as [sized|] eqn:E2 in H; [|discriminate]. cbn [rbind] in H.
  set (order := ordered_texts reverse sized) in *.
  destruct (forallb _ texts) eqn:E3 in H; [|discriminate]. cbn [negb] in H.
  destruct (rseq _) as [keyed|] eqn:E4 in H; [|discriminate]. cbn [rbind] in H. injection H as <-.
  apply rseq_map_ok in E1, E2, E4.
  assert (ND : NoDup order).
  { apply ordered_nodup. assert (E : map fst sized = map fst (set_of (fun x y : string * res nat => str_eqb (fst x) (fst y)) texts)).
    { clear - E2. induction E2 as [|x y l m P F IH]; auto. cbn. rewrite IH. f_equal. destruct (snd x); [|discriminate]. injection P as <-. auto. }
    rewrite E. apply set_of_fst_nodup. }
  set (T := fun l => match feature_text G by_name (heap l) with Ok (t, _) => t | _ => "" end).
  assert (ET : map fst texts = map T ls).
  { clear - E1. unfold T. induction E1 as [|r t l m P F IH]; auto. cbn. rewrite IH, P. destruct t; auto. }
  set (B := fun l => match bounds_of (heap l) with Ok b => b | _ => [] end).
  assert (EK : keyed = map (fun r => (B r, r)) ls).
  { clear - E4. unfold B. induction E4 as [|r t l m P F IH]; auto. cbn. rewrite IH. f_equal. destruct (bounds_of (heap r)); [|discriminate]. injection P as <-. auto. }
  assert (C : forall r, In r ls -> mem str_eqb (T r) order = true).
  { intros r R. rewrite forallb_forall in E3. assert (I : In (T r) (map fst texts)) by (rewrite ET; apply in_map; auto).
    apply in_map_iff in I as (x & X & I). rewrite <- X. apply E3. auto. }
  transitivity (filter (fun r => mem str_eqb (T r) order) ls).
  { apply Permutation_refl'. symmetry. apply filter_all. auto. }
  rewrite groups_perm by auto. apply flat_map_perm. intros t.
  assert (EG : map snd (filter (fun p => str_eqb t (fst (fst p))) (combine texts keyed)) = map (fun r => (B r, r)) (filter (fun r => str_eqb t (T r)) ls)).
  { rewrite EK. clear - ET. revert texts ET. induction ls as [|r ls IH]; intros [|x texts] ET; try discriminate; auto.
    cbn in ET. injection ET as Ex ET. cbn [map combine filter fst snd]. rewrite Ex. destruct (str_eqb t (T r)); cbn; rewrite IH by auto; auto. }
  rewrite EG. transitivity (map snd (map (fun r => (B r, r)) (filter (fun r => str_eqb t (T r)) ls))).
  - rewrite map_map. cbn. rewrite map_id. auto.
  - apply Permutation_map. symmetry. apply sorted_perm.
Qed.

Lemma by_attribute_perm (heap : nat -> rule) name reverse ls l : objects_by_attribute heap name reverse ls = Ok l -> Permutation ls l.
Proof.
  unfold objects_by_attribute. intros H. destruct (rseq _) as [keyed|] eqn:E in H; [|discriminate]. cbn [rbind] in H.
  apply rseq_map_ok in E. assert (ES : map snd keyed = ls).
  { clear - E. induction E as [|r k l m P F IH]; auto. cbn. rewrite IH. f_equal. destruct (getattr (heap r) name); [|discriminate]. injection P as <-. auto. }
  destruct keyed as [|k1 [|k2 keyed]]; try (injection H as <-; auto; fail).
  set (ks := k1 :: k2 :: keyed) in *. destruct (existsb _ ks); [discriminate|].
  assert (G : forall K (f : obj * nat -> res (K * nat)) (lt : K -> K -> bool) m, (forall p q, f p = Ok q -> snd q = snd p) ->
     rseq (map f ks) = Ok m -> Permutation ls (map snd (sorted (first_lt lt) m))).
  { intros K f lt m P Q. apply rseq_map_ok in Q. rewrite <- ES. transitivity (map snd m).
    - apply Permutation_refl'. exact (snd_same f ks m P Q).
    - apply Permutation_map. symmetry. apply sorted_perm. }
  destruct (rseq _) as [m|] eqn:E1 in H.
  - injection H as <-. eapply G; [|exact E1]. intros (o, r) q. cbn.
    destruct o as [[]| | | |]; try discriminate. intros X. injection X as <-. auto.
  - destruct (rseq _) as [m|] eqn:E2 in H; [|discriminate]. injection H as <-. eapply G; [|exact E2].
    intros (o, r) q. cbn. destruct o as [[]| | | |]; try discriminate. intros X. injection X as <-. auto.
Qed.

Lemma sorted_perm_objects G heap c reverse by_name ls l : objects_sorted G heap c reverse by_name ls = Some (Ok l) -> Permutation ls l.
Proof.
  unfold objects_sorted. destruct ls as [|x ls]; [discriminate|]. set (xs := x :: ls).
  destruct (match c with None => "" | Some c => c end) as [|a b] eqn:C.
  - destruct (has_condition (heap x)); [|discriminate]. intros E. injection E as E. eapply by_features_perm; eauto.
  - destruct (hasattr (heap x) _) as [[]|]; try discriminate. intros E. injection E as E. eapply by_attribute_perm; eauto.
Qed.

(** What sort does, from the new order *)
Lemma set_sort_from G heap c reverse s ls : s_rules s = map heap ls ->
  set_sort G c reverse s =
  match objects_sorted G heap c reverse (uses_names s) ls with
  | Some (Ok l) => reorder G (with_rules (map heap l) s)
  | Some (Err e) => (Err e, s)
  | None => (fst (set_sort G c reverse s), s)
  end.
Proof.
  intros R. unfold set_sort, objects_sorted. rewrite R. destruct ls as [|x ls]; [auto|]. set (xs := x :: ls) in *.
  change (map heap xs) with (heap x :: map heap ls). cbv iota.
  destruct (match c with None => "" | Some c => c end) as [|a b] eqn:C.
  - destruct (has_condition (heap x)); auto. rewrite (by_features_same G heap reverse xs s R).
    destruct (objects_by_features _ _ _ _ _); reflexivity.
  - destruct (hasattr (heap x) _) as [[]|]; auto.
    change (heap x :: map heap ls) with (map heap xs). rewrite by_attribute_same. destruct (objects_by_attribute _ _ _ _); reflexivity.
Qed.

(** As [tracks], also when an object is in the list twice *)
Definition strictly {A} (p : pool) (i : nat) (h : handle) (m : res A * pool) (v : res A * ruleset) : Prop :=
  exists h', phased p (snd m) i h h' /\ fst m = fst v /\ view (snd m) h' = snd v /\ (NoDup (b_rules h) -> NoDup (b_rules h')).

Lemma strictly_none {A} p i h (o : res A) : ruleset_at p i h -> strictly p i h (o, p) (o, view p h).
Proof. intros A1. exists h. split; [apply phased_refl; auto|]. auto. Qed.

Lemma strictly_sort G p i h c reverse : ruleset_at p i h ->
  strictly p i h (pool_sort G i c reverse p) (set_sort G c reverse (view p h)).
Proof.
  intros A. unfold pool_sort, method. rewrite (proj2 (get_ok _ _ _) A).
  pose proof (set_sort_from G (p_rules p) c reverse (view p h) (b_rules h) eq_refl) as E.
  destruct (set_sort G c reverse (view p h)) as [o s'] eqn:Q.
  destruct (objects_sorted G (p_rules p) c reverse (uses_names (view p h)) (b_rules h)) as [[l|e]|] eqn:O.
  2,3: cbn [fst snd] in E; injection E; intros; subst; apply strictly_none; auto.
  pose proof (sorted_perm_objects _ _ _ _ _ _ _ O) as P.
  assert (I : incl l (b_rules h)) by (intros x X; apply (Permutation_in x (Permutation_sym P)); auto).
  assert (D : NoDup (b_rules h) -> NoDup l) by (intros D; eapply Permutation_NoDup; eauto).
  assert (K : forall k p1 h1, (k, p1) = frame_after_step h (s_stack (view p h)) o s' p -> h1 = mkHandle l k s' ->
    map (p_rules p) l = s_rules s' -> (forall f, s_stacked s' = Some f -> b_frame h = None \/ s_stack (view p h) = true /\ o = Ok tt \/ s_stacked (view p h) = Some f) ->
    strictly p i h (o, keep_set i l k s' p1) (o, s')).
  { intros k p1 h1 F -> V W. unfold frame_after_step in F. destruct (s_stacked s') as [f|] eqn:S.
    - assert (New : (k, p1) = new_frame f p -> strictly p i h (o, keep_set i l k s' p1) (o, s')).
      { intros N. injection N as -> ->. eexists. split; [constructor; cbn; try reflexivity; auto using still_refl|].
        - intros k K. apply put_other. lia.
        - right. apply newer_next. auto.
        - cbn [fst snd]. split; auto. split; auto. apply view_of; cbn; auto. rewrite put_same. auto. }
      assert (Old : forall k', b_frame h = Some k' -> (k, p1) = (Some k', p) -> s_stacked (view p h) = Some f -> strictly p i h (o, keep_set i l k s' p1) (o, s')).
      { intros k' B N T. injection N as -> ->. eexists. split; [constructor; cbn; try reflexivity; auto using still_refl|].
        cbn [fst snd]. split; auto. split; auto. apply view_of; cbn; auto. rewrite S. rewrite <- T. cbn. rewrite B. auto. }
      destruct (b_frame h) as [k'|] eqn:B; [|apply New; auto]. destruct (W f eq_refl) as [W1|[(W1 & W2)|W1]]; [discriminate| |].
      + subst o. rewrite W1 in F. auto.
      + destruct o as [[]|e]; [destruct (s_stack (view p h))|]; eauto.
    - injection F as -> ->. eexists. split; [constructor; cbn; try reflexivity; auto using still_refl|].
      + right. left. auto.
      + cbn [fst snd]. split; auto. split; auto. apply view_of; cbn; auto. }
  destruct (frame_after_step h (s_stack (view p h)) o s' p) as [k p1] eqn:F. eapply K; eauto.
  - destruct (reorder_any G (with_rules (map (p_rules p) l) (view p h))) as (f & R & _). rewrite <- E in R. cbn [snd] in R. rewrite R. auto.
  - intros f S. unfold reorder in E. cbn [s_stack with_rules view with_stacked] in *. destruct (s_stack (b_rest h)) eqn:ST.
    + unfold use in E. destruct (match s_stacked _ with None => _ | Some f => _ end) as [f1|]; injection E as -> ->; auto.
    + injection E as -> ->. auto.
Qed.

Lemma tracks_sort G p i h c reverse : ruleset_at p i h ->
  tracks p i h (pool_sort G i c reverse p) (set_sort G c reverse (view p h)).
Proof. intros A. destruct (strictly_sort G p i h c reverse A) as (h' & P & V1 & V2 & V3). exists h'. split; auto. Qed.

(** ** fit, eval and predict *)

Lemma tracks_map {A B} p i h (m : res A * pool) v (f : A -> B) : tracks p i h m v -> tracks p i h (rmap f (fst m), snd m) (rmap f (fst v), snd v).
Proof. intros (h' & P & V). exists h'. split; auto. intros D. destruct (V D) as (V1 & V2 & V3). cbn [fst snd]. rewrite V1. auto. Qed.

Lemma tracks_eq {A} p i h (m : res A * pool) v v' : v = v' -> tracks p i h m v -> tracks p i h m v'.
Proof. intros ->. auto. Qed.

Lemma tracks_predict G p i h xs w : ruleset_at p i h ->
  tracks p i h (pool_predict G i xs w p) (rmap (fun _ => tt) (fst (set_predict G xs w (view p h))), snd (set_predict G xs w (view p h))).
Proof.
  intros A. unfold pool_predict.
  eapply tracks_eq; [|apply (tracks_calm p i h (fun s => let (o, s) := set_predict G xs w s in (rmap (fun _ => tt) o, s))); auto].
  - cbv beta. destruct (set_predict G xs w (view p h)); auto.
  - pose proof (predict_calm G xs w (view p h)) as C. destruct (set_predict G xs w (view p h)); auto.
Qed.

Lemma tracks_fit_rules G p i h k y series xs force kw : ruleset_at p i h ->
  tracks p i h (pool_fit_rules G i k y series xs force kw p) (fit_rules G k y series xs force kw (view p h)).
Proof.
  intros A. unfold pool_fit_rules. destruct (g_stacked G) eqn:ST.
  - unfold fit_rules. rewrite ST. apply tracks_look; auto. unfold fit_stacked. cbv zeta. apply tracks_unit; auto.
    + apply (tracks_ready p i h (fun s => given xs || not_stacked s)); auto. apply fit_activations_ready.
    + intros p1 h1 A1. apply (tracks_calm p1 i h1); auto. apply fit_assign_calm.
  - apply (tracks_calm p i h); auto. apply fit_alone_calm. auto.
Qed.

Lemma tracks_eval_rules G p i h k y xs keep_new force kw : ruleset_at p i h ->
  tracks p i h (pool_eval_rules G i k y xs keep_new force kw p) (eval_rules G k y xs keep_new force kw (view p h)).
Proof.
  intros A. unfold pool_eval_rules. destruct (g_stacked G) eqn:ST.
  - unfold eval_rules. rewrite ST. apply tracks_look; auto. unfold eval_stacked. cbv zeta. apply tracks_then; auto.
    + apply (tracks_ready p i h (fun s => if given xs then keep_new else not_stacked s)); auto. apply eval_activations_ready.
    + intros f p1 h1 A1. apply (tracks_calm p1 i h1); auto. apply eval_assign_calm.
  - apply (tracks_calm p i h); auto. apply eval_alone_calm. auto.
Qed.

(** Answers apart *)
Definition silent {A} (v : res A * ruleset) : res unit * ruleset := (rmap (fun _ => tt) (fst v), snd v).

Lemma silent_next {A B} (m : res A * ruleset) (f : A -> ruleset -> res B * ruleset) : silent (next m f) = next m (fun a s => silent (f a s)).
Proof. destruct m as [[a|e] s]; auto. Qed.

Lemma silent_chain {B} (m : res unit * ruleset) (f : ruleset -> res B * ruleset) : silent (chain m f) = chain m (fun s => silent (f s)).
Proof. destruct m as [[a|e] s]; auto. Qed.

Lemma tracks_train p i h (y : MetModel.target label) {A} (answer : A) : ruleset_at p i h ->
  tracks p i h (phase i never (fun s => use (target_len y) (fun n s => done (with_train (integer n) s)) s) p)
    (silent (use (target_len y) (fun n s => (Ok answer, with_train (integer n) s)) (view p h))).
Proof.
  intros A1. eapply tracks_eq; [|apply tracks_calm; [exact A1|]].
  - cbv beta. destruct (target_len y); auto.
  - apply calm_use. intros n. apply calm_attributes; cbn; auto.
Qed.

Lemma tracks_test p i h (y : MetModel.target label) {A} (answer : A) : ruleset_at p i h ->
  tracks p i h (phase i never (fun s => use (target_len y) (fun n s => done (with_test (integer n) s)) s) p)
    (silent (use (target_len y) (fun n s => (Ok answer, with_test (integer n) s)) (view p h))).
Proof.
  intros A1. eapply tracks_eq; [|apply tracks_calm; [exact A1|]].
  - cbv beta. destruct (target_len y); auto.
  - apply calm_use. intros n. apply calm_attributes; cbn; auto.
Qed.

Lemma tracks_fit G p i h y series xs force kw : ruleset_at p i h ->
  tracks p i h (pool_fit G i y series xs force kw p) (silent (set_fit G y series xs force kw (view p h))).
Proof.
  intros A. unfold pool_fit. apply tracks_look; auto. unfold set_fit. destruct (learns (view p h) kw) as [k|e]; cbn [use]; [|apply tracks_none; auto].
  destruct (no_rows xs); [apply (tracks_none p i h (Ok tt)); auto|].
  destruct (s_rules (view p h)) as [|r l] eqn:R; [apply (tracks_none p i h (Ok tt)); auto|].
  destruct (forallb r_fitted (r :: l) && negb (given xs)); [apply (tracks_none p i h (Ok tt)); auto|]. cbv zeta.
  rewrite silent_next. apply tracks_then; auto; [apply tracks_fit_rules; auto|].
  intros drop p1 h1 A1. apply tracks_look; auto. rewrite silent_chain.
  pose proof (fun p2 h2 A2 => tracks_train p2 i h2 y (map snd (numbers_rules (s_rules (view p1 h1)) drop)) A2) as TT.
  apply tracks_unit; auto. clear TT.
  pose proof (tracks_drop G p1 i h1 drop A1) as TD.
  destruct (numbers_rules (s_rules (view p1 h1)) drop) as [|d ds].
  - destruct (g_stacked G); [apply tracks_none; auto|]. apply tracks_refresh. auto.
  - apply tracks_unit; auto. intros p2 h2 A2. apply tracks_refresh. auto.
Qed.

Lemma tracks_eval G p i h y xs keep_new w force kw : ruleset_at p i h ->
  tracks p i h (pool_eval G i y xs keep_new w force kw p) (silent (set_eval G y xs keep_new w force kw (view p h))).
Proof.
  intros A. unfold pool_eval. apply tracks_look; auto. unfold set_eval. destruct (learns (view p h) kw) as [k|e]; cbn [use]; [|apply tracks_none; auto].
  destruct (no_rows xs); [apply (tracks_none p i h (Ok tt)); auto|].
  destruct (s_rules (view p h)) as [|r l] eqn:R; [apply (tracks_none p i h (Ok tt)); auto|].
  destruct (negb (forallb r_fitted (r :: l)) && negb (given xs)); [apply (tracks_none p i h (Err EValue)); auto|]. cbv zeta.
  rewrite silent_next. apply tracks_then; auto; [apply tracks_eval_rules; auto|].
  intros drop p1 h1 A1. apply tracks_look; auto. rewrite silent_chain.
  pose proof (fun p2 h2 A2 => tracks_test p2 i h2 y (map snd (numbers_rules (s_rules (view p1 h1)) drop)) A2) as TT.
  apply tracks_unit; auto.
  - clear TT. pose proof (tracks_drop G p1 i h1 drop A1) as TD.
    destruct (numbers_rules (s_rules (view p1 h1)) drop) as [|d ds].
    + destruct (g_stacked G); [apply tracks_none; auto|]. apply tracks_refresh. auto.
    + apply tracks_unit; auto. intros p2 h2 A2. apply tracks_look; auto. apply tracks_refresh. auto.
  - intros p2 h2 A2. rewrite silent_chain. apply tracks_unit; auto.
    apply (tracks_calm p2 i h2); auto. apply criterion_calm.
Qed.

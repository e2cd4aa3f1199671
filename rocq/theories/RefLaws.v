(** The statements of the properties about the lists of conditions as objects. *)
From Coq Require Import List ZArith QArith Bool String Lia.
From Coq Require Import List.
From Verif Require Import Base Num CondModel RuleModel PredModel SetModel TreeModel TreeProofs TreeVisit RefModel RefSpec RefProofs RefAnd RefMore RefTree.
Import ListNotations.
Open Scope string_scope.
Open Scope list_scope.
Open Scope Z_scope.

(** ** Logical and *)

Lemma and_keeps sett a b H o H' : exists_in H a -> exists_in H b -> r_band sett a b H = (o, H') ->
  keeps H H' /\ rmap (view H') o = band sett (view H a) (view H b).
Proof. intros A B R. destruct (r_band_spec _ _ _ _ _ _ A B R) as (K & V & _). auto. Qed.

Lemma and_independent sett a b H c H' es : exists_in H a -> exists_in H b -> r_band sett a b H = (Ok c, H') ->
  (Forall (fun e => edited e < h_next H)%nat es -> view (apply_edits es H') c = view H' c) /\
  (Forall (fun e => holds (h_conds H' c) (edited e)) es -> forall d, exists_in H d -> view (apply_edits es H') d = view H d).
Proof.
  intros A B R. destruct (r_band_spec _ _ _ _ _ _ A B R) as (K & _ & N). specialize (N c eq_refl). split.
  - exact (brand_new_independent _ _ _ _ N).
  - intros F d D. exact (brand_new_harmless _ _ _ _ _ K N D F).
Qed.

(** ** Construction *)

Lemma built sett idx mins maxs names empty srt H o H' :
  there H idx -> there H mins -> there H maxs -> there H names ->
  r_build sett idx mins maxs names empty srt H = (o, H') ->
  keeps H H' /\
  rmap (view H') o = build sett (ints_given H idx) (nums_given H mins) (nums_given H maxs) (texts_given H names) empty srt.
Proof. intros A B C D R. destruct (r_build_spec _ _ _ _ _ _ _ _ _ _ A B C D R) as (K & V & _). auto. Qed.

Lemma built_sorted sett idx mins maxs names H c H' es :
  there H idx -> there H mins -> there H maxs -> there H names ->
  r_build sett idx mins maxs names false true H = (Ok c, H') -> (2 <= clen (view H' c))%nat ->
  Forall (fun e => edited e < h_next H)%nat es -> view (apply_edits es H') c = view H' c.
Proof.
  intros A B C D R L F. destruct (r_build_spec _ _ _ _ _ _ _ _ _ _ A B C D R) as (_ & _ & W). destruct (W c eq_refl) as (_ & _ & _ & W').
  specialize (W' eq_refl). cbn [andb] in W'. assert (T : (1 <? clen (view H' c))%nat = true) by (apply Nat.ltb_lt; lia). rewrite T in W'.
  exact (brand_new_independent _ _ _ _ W' F).
Qed.

Lemma built_given sett idx mins maxs names srt H c H' :
  there H idx -> there H mins -> there H maxs -> there H names ->
  r_build sett idx mins maxs names false srt H = (Ok c, H') -> srt = false \/ (clen (view H' c) <= 1)%nat ->
  (forall a l, idx = Some a -> c_idx (view (put_ints a l H') c) = Some l) /\
  (forall a l, mins = Some a -> c_min (view (put_nums a l H') c) = Some l) /\
  (forall a l, maxs = Some a -> c_max (view (put_nums a l H') c) = Some l) /\
  (forall a l, names = Some a -> c_names (view (put_texts a l H') c) = Some l) /\
  (forall a l, c_imp (view (put_nums a l H') c) = c_imp (view H' c)).
Proof.
  intros A B C D R L. destruct (r_build_spec _ _ _ _ _ _ _ _ _ _ A B C D R) as (_ & _ & W). destruct (W c eq_refl) as (_ & _ & _ & W').
  specialize (W' eq_refl). assert (T : srt && (1 <? clen (view H' c))%nat = false).
  { destruct L as [->|L]; [auto|]. apply Nat.ltb_ge in L. rewrite L. apply andb_false_r. }
  rewrite T in W'. destruct W' as (W1 & W2 & W3 & W4).
  split.
  { intros a l E. destruct W1 as [W1|(W1 & _)]; [|congruence]. rewrite E in W1. rewrite (edit_ints_shows _ _ _ _ W1). reflexivity. }
  split; [intros a l E; rewrite E in W2; destruct (edit_nums_shows H' c a l) as (_ & _ & _ & X & _); auto|].
  split; [intros a l E; rewrite E in W3; destruct (edit_nums_shows H' c a l) as (_ & _ & _ & _ & _ & X & _); auto|].
  split.
  { intros a l E. destruct W4 as [W4|(W4 & _)]; [|congruence]. rewrite E in W4. rewrite (edit_texts_shows _ _ _ _ W4). reflexivity. }
  intros a l. destruct (edit_nums_shows H' c a l) as (_ & _ & X & _). exact X.
Qed.

(** ** Setters *)

Lemma set_as_values c H : exists_in H c ->
  (forall v, source_there H v -> let (o, H') := r_set_indexes v c H in
     keeps_but c H H' /\ (o, view H' c) = set_features_indexes (meant (h_ints H) v) (view H c)) /\
  (forall v, source_there H v -> let (o, H') := r_set_names v c H in
     keeps_but c H H' /\ (o, view H' c) = set_features_names (meant (h_texts H) v) (view H c)) /\
  (forall v, source_there H v -> let (o, H') := r_set_bmins v c H in
     keeps_but c H H' /\ (o, view H' c) = set_bmins (meant (h_nums H) v) (view H c)) /\
  (forall v, source_there H v -> let (o, H') := r_set_bmaxs v c H in
     keeps_but c H H' /\ (o, view H' c) = set_bmaxs (meant (h_nums H) v) (view H c)).
Proof.
  intros X. split; [|split; [|split]]; intros v V.
  - destruct (r_set_indexes v c H) as [o H'] eqn:R. destruct (r_set_indexes_spec _ _ _ _ _ X V R) as (K & W & _). auto.
  - destruct (r_set_names v c H) as [o H'] eqn:R. destruct (r_set_names_spec _ _ _ _ _ X V R) as (K & W & _). auto.
  - destruct (r_set_bmins v c H) as [o H'] eqn:R. destruct (r_set_bmins_spec _ _ _ _ _ X V R) as (K & W & _). auto.
  - destruct (r_set_bmaxs v c H) as [o H'] eqn:R. destruct (r_set_bmaxs_spec _ _ _ _ _ X V R) as (K & W & _). auto.
Qed.

(** The list that is given is the list of the condition. *)
Lemma set_shares c a H H' : exists_in H c -> (a < h_next H)%nat ->
  (r_set_indexes (SList a) c H = (Ok tt, H') -> forall l, c_idx (view (put_ints a l H') c) = Some l) /\
  (r_set_names (SList a) c H = (Ok tt, H') -> forall l, c_names (view (put_texts a l H') c) = Some l) /\
  (r_set_bmins (SList a) c H = (Ok tt, H') -> forall l, c_min (view (put_nums a l H') c) = Some l) /\
  (r_set_bmaxs (SList a) c H = (Ok tt, H') -> forall l, c_max (view (put_nums a l H') c) = Some l).
Proof.
  intros X A. split; [|split; [|split]]; intros R l.
  - destruct (r_set_indexes_spec _ _ _ _ _ X (A : source_there H (@SList Z a)) R) as (_ & _ & W). destruct (W eq_refl) as (b & P & E & _). cbn in P. subst b.
    rewrite (edit_ints_shows _ _ _ _ E). reflexivity.
  - destruct (r_set_names_spec _ _ _ _ _ X (A : source_there H (@SList string a)) R) as (_ & _ & W). destruct (W eq_refl) as (b & P & E & _). cbn in P. subst b.
    rewrite (edit_texts_shows _ _ _ _ E). reflexivity.
  - destruct (r_set_bmins_spec _ _ _ _ _ X (A : source_there H (@SList num a)) R) as (_ & _ & W). destruct (W eq_refl) as (b & P & E & _). cbn in P. subst b.
    destruct (edit_nums_shows H' c a l) as (_ & _ & _ & Y & _). auto.
  - destruct (r_set_bmaxs_spec _ _ _ _ _ X (A : source_there H (@SList num a)) R) as (_ & _ & W). destruct (W eq_refl) as (b & P & E & _). cbn in P. subst b.
    destruct (edit_nums_shows H' c a l) as (_ & _ & _ & _ & _ & Y & _). auto.
Qed.

(** A text gives a new list: what was there before does not reach it. *)
Lemma set_text_own c H H' a : exists_in H c -> (a < h_next H)%nat ->
  (forall r, r_set_indexes (SText r) c H = (Ok tt, H') -> forall l, view (put_ints a l H') c = view H' c) /\
  (forall r, r_set_names (SText r) c H = (Ok tt, H') -> forall l, view (put_texts a l H') c = view H' c) /\
  (forall r, r_set_bmins (SText r) c H = (Ok tt, H') -> forall l, c_min (view (put_nums a l H') c) = c_min (view H' c)) /\
  (forall r, r_set_bmaxs (SText r) c H = (Ok tt, H') -> forall l, c_max (view (put_nums a l H') c) = c_max (view H' c)).
Proof.
  intros X A. split; [|split; [|split]]; intros r R l.
  - destruct (r_set_indexes_spec _ _ _ _ _ X (Logic.I : source_there H (SText r)) R) as (_ & _ & W). destruct (W eq_refl) as (b & P & E & _). cbn in P.
    apply (edit_other (EInts a l)). cbn. intros Y. inversion Y as [z Z]. assert (a = b) by congruence. lia.
  - destruct (r_set_names_spec _ _ _ _ _ X (Logic.I : source_there H (SText r)) R) as (_ & _ & W). destruct (W eq_refl) as (b & P & E & _). cbn in P.
    apply (edit_other (ETexts a l)). cbn. intros Y. inversion Y as [z Z]. assert (a = b) by congruence. lia.
  - destruct (r_set_bmins_spec _ _ _ _ _ X (Logic.I : source_there H (SText r)) R) as (_ & _ & W). destruct (W eq_refl) as (b & P & E & _). cbn in P.
    destruct (edit_nums_shows H' c a l) as (_ & _ & _ & _ & Y & _). apply Y. rewrite E. intros Z. injection Z as Z. lia.
  - destruct (r_set_bmaxs_spec _ _ _ _ _ X (Logic.I : source_there H (SText r)) R) as (_ & _ & W). destruct (W eq_refl) as (b & P & E & _). cbn in P.
    destruct (edit_nums_shows H' c a l) as (_ & _ & _ & _ & _ & _ & Y). apply Y. rewrite E. intros Z. injection Z as Z. lia.
Qed.

(** ** In place *)

Lemma edit_elsewhere e H c : ~ touches e (h_conds H c) -> view (apply_edit e H) c = view H c.
Proof. exact (edit_other e H c). Qed.

Lemma edit_shows H c a :
  (forall l, o_idx (h_conds H c) = Some a ->
     view (apply_edit (EInts a l) H) c = mkCond (Some l) (c_min (view H c)) (c_max (view H c)) (c_names (view H c)) (c_imp (view H c))) /\
  (forall l, o_names (h_conds H c) = Some a ->
     view (apply_edit (ETexts a l) H) c = mkCond (c_idx (view H c)) (c_min (view H c)) (c_max (view H c)) (Some l) (c_imp (view H c))) /\
  (forall l, o_min (h_conds H c) = Some a -> o_max (h_conds H c) <> Some a ->
     view (apply_edit (ENums a l) H) c = mkCond (c_idx (view H c)) (Some l) (c_max (view H c)) (c_names (view H c)) (c_imp (view H c))) /\
  (forall l, o_min (h_conds H c) <> Some a -> o_max (h_conds H c) = Some a ->
     view (apply_edit (ENums a l) H) c = mkCond (c_idx (view H c)) (c_min (view H c)) (Some l) (c_names (view H c)) (c_imp (view H c))) /\
  (forall l, o_min (h_conds H c) = Some a -> o_max (h_conds H c) = Some a ->
     view (apply_edit (ENums a l) H) c = mkCond (c_idx (view H c)) (Some l) (Some l) (c_names (view H c)) (c_imp (view H c))).
Proof.
  split; [intros l E; exact (edit_ints_shows _ _ _ _ E)|]. split; [intros l E; exact (edit_texts_shows _ _ _ _ E)|].
  split; [|split]; intros l Em EM; destruct (edit_nums_shows H c a l) as (A1 & A2 & A3 & A4 & A5 & A6 & A7); cbn [apply_edit];
    destruct (view (put_nums a l H) c) as [i m M n b]; cbn in *; subst i n b; f_equal; auto.
Qed.

(** The flag is not looked at again: rows are compared with the new bounds if it
    was not set, and none is activated if it was. *)
Lemma edit_evaluates H c a l xs : o_min (h_conds H c) = Some a -> o_max (h_conds H c) <> Some a ->
  evaluate (view (apply_edit (ENums a l) H) c) xs =
  if o_imp (h_conds H c) then Ok (repeat 0 (nrows xs))
  else evaluate (mkCond (c_idx (view H c)) (Some l) (c_max (view H c)) (c_names (view H c)) false) xs.
Proof.
  intros Em EM. destruct (edit_shows H c a) as (_ & _ & X & _). rewrite (X l Em EM).
  replace (c_imp (view H c)) with (o_imp (h_conds H c)) by reflexivity.
  destruct (o_imp (h_conds H c)); reflexivity.
Qed.

(** ** Trees *)

Lemma tree_same limit G T q H s : extract_rules_from_tree limit G T q = Ok s ->
  exists cs H', r_visitor limit (e_sort (g_env G)) T q 0 None [] H = (Ok (map Some cs), H') /\ keeps H H' /\
    map r_cond (s_rules s) = map (fun c => Some (view H' c)) cs.
Proof.
  unfold extract_rules_from_tree. destruct limit as [|limit]; [discriminate|]. rewrite new_set_none_ok. cbn [rbind]. intros E.
  destruct (r_visitor_spec (S limit) G T q 0 None _ s [] H Logic.I E) as (cs & H' & R & (K & _) & rs & Q & W).
  exists cs, H'. split; [exact R|]. split; [exact K|]. rewrite Q. exact W.
Qed.

Lemma ord_pairs A (R : A -> A -> Prop) l i j a b : (forall x y, R x y -> R y x) -> ForallOrdPairs R l ->
  nth_error l i = Some a -> nth_error l j = Some b -> i <> j -> R a b.
Proof.
  intros Sy F. revert i j. induction F as [|x l Fx F IH]; intros i j A1 B1 N; [destruct i; discriminate A1|].
  rewrite Forall_forall in Fx. destruct i as [|i], j as [|j]; cbn in A1, B1.
  - destruct (N eq_refl).
  - injection A1 as <-. apply Fx. exact (nth_error_In _ _ B1).
  - injection B1 as <-. apply Sy, Fx. exact (nth_error_In _ _ A1).
  - apply (IH i j); auto.
Qed.

Lemma tree_own limit G T q H s cs H' es i j c d : extract_rules_from_tree limit G T q = Ok s ->
  r_visitor limit (e_sort (g_env G)) T q 0 None [] H = (Ok (map Some cs), H') ->
  nth_error cs i = Some c -> nth_error cs j = Some d -> i <> j ->
  Forall (fun e => holds (h_conds H' c) (edited e)) es -> view (apply_edits es H') d = view H' d.
Proof.
  unfold extract_rules_from_tree. destruct limit as [|limit]; [discriminate|]. rewrite new_set_none_ok. cbn [rbind]. intros E R C D N F.
  destruct (r_visitor_spec (S limit) G T q 0 None _ s [] H Logic.I E) as (cs' & H1 & R' & (K & B & P) & _).
  rewrite R in R'. injection R' as R' <-.
  assert (Q : cs = cs').
  { clear -R'. cbn in R'. revert cs' R'. induction cs as [|x cs IH]; intros [|y cs'] E; try discriminate E; auto. injection E as -> E. f_equal. auto. }
  subst cs'.
  assert (S : strangers H' c d).
  { apply (ord_pairs _ _ _ i j _ _ (fun x y (W : strangers H' x y) => match W with conj a (conj b e) => conj (fun z => a (eq_sym z)) (conj e b) end) P C D N). }
  apply edits_other. revert F. apply Forall_impl. intros e X. exact (proj1 (proj2 S) _ X).
Qed.

(** ** Incomplete conditions in a logical and *)

Lemma and_no_indexes sett m M n b other :
  band sett (mkCond None m M (Some n) b) other =
  band sett (mkCond (Some (map Z.of_nat (seq 0 (List.length n)))) m M (Some n) b) other.
Proof.
  unfold band. cbn [c_idx c_min c_max c_names option_map]. unfold build.
  destruct (option_map (map AFloat) m); [|reflexivity]. destruct (option_map (map AFloat) M); [|reflexivity].
  cbn [rbind]. rewrite (map_length AStr n). reflexivity.
Qed.

Lemma and_no_names sett i m M b other :
  band sett (mkCond (Some i) m M None b) other =
  band sett (mkCond (Some i) m M (Some (map (fun i => String.append "X_" (show_int i)) i)) b) other.
Proof.
  unfold band. cbn [c_idx c_min c_max c_names option_map]. unfold build.
  destruct (option_map (map AFloat) m); [|reflexivity]. destruct (option_map (map AFloat) M); [|reflexivity].
  cbn [rbind]. rewrite !map_length, Nat.eqb_refl. cbn [negb].
  rewrite (existsb_map_false _ _ AStr) by reflexivity. rewrite the_strs, the_ints. reflexivity.
Qed.

Lemma and_nothing sett m M b other : band sett (mkCond None m M None b) other = Err EValue.
Proof.
  unfold band. cbn [c_idx c_min c_max c_names option_map]. unfold build. destruct m; [|reflexivity]. destruct M; reflexivity.
Qed.

Lemma and_no_bounds sett i m M n b other : m = None \/ M = None -> band sett (mkCond i m M n b) other = Err EValue.
Proof.
  unfold band. cbn [c_idx c_min c_max c_names]. unfold build. intros [->| ->]; cbn [option_map]; [reflexivity|]. destruct m; reflexivity.
Qed.

(** Nothing is completed on the right. *)
Lemma and_right sett self other : c_idx other = None \/ c_names other = None \/ c_min other = None \/ c_max other = None ->
  exists e, band sett self other = Err e.
Proof.
  intros Inc.
  destruct (build sett (option_map (map AInt) (c_idx self)) (option_map (map AFloat) (c_min self))
    (option_map (map AFloat) (c_max self)) (option_map (map AStr) (c_names self)) false true) as [v|e] eqn:B.
  2:{ unfold band. rewrite B. exists e. reflexivity. }
  destruct (build_complete _ _ _ _ _ _ _ B) as (si & sm & sM & sn & bb & ->).
  rewrite (band_unfold _ _ _ _ _ _ _ _ B).
  assert (Fn : forall smin smax, exists e, finish sett si sn smin smax other = Err e).
  { intros smin smax. unfold finish. destruct other as [[oi|] [om|] [oM|] [on|] ob]; cbn [c_idx c_min c_max c_names need rbind] in *;
      try (eexists; reflexivity). destruct Inc as [E|[E|[E|E]]]; discriminate E. }
  destruct (c_names other) as [on|] eqn:On.
  - cbn [rbind]. cbv zeta. destruct (filter (fun f => mem str_eqb f on) sn) as [|f0 fs]; [apply Fn|].
    assert (I : exists e, intersect sn on (f0 :: fs) si sm sM (need (c_idx other)) (need (c_min other)) (need (c_max other)) = Err e).
    { unfold intersect. destruct (positions sn (f0 :: fs)); [|cbn; eauto]. destruct (positions on (f0 :: fs)); [|cbn; eauto]. cbn [rbind].
      destruct (c_idx other); [|cbn; eauto]. destruct (c_min other); [|cbn; eauto]. destruct (c_max other); [|cbn; eauto].
      destruct Inc as [E|[E|[E|E]]]; discriminate E. }
    destruct I as (e & ->). cbn. eauto.
  - destruct sn as [|x sn]; [|cbn; eauto]. cbn [rbind filter]. apply Fn.
Qed.

(** Proofs about the lists of conditions as objects: the rules of a tree. *)
From Coq Require Import List ZArith QArith Bool String Lia.
From Coq Require Import List.
From Verif Require Import Base Num CondModel RuleModel PredModel SetModel TreeModel TreeProofs TreeVisit RefModel RefSpec RefProofs RefAnd RefMore.
Import ListNotations.
Open Scope string_scope.
Open Scope list_scope.
Open Scope Z_scope.

(** ** Deep copies *)

Lemma deepcopy_spec c H r H' : exists_in H c -> deepcopy c H = (r, H') ->
  keeps H H' /\ exists d, r = Ok d /\ view H' d = view H c /\ exists_in H' d /\ (h_next H <= d)%nat /\
    (forall a, holds (h_conds H' d) a -> h_next H <= a)%nat /\
    ((forall a, o_min (h_conds H c) = Some a -> o_max (h_conds H c) <> Some a) ->
      forall a, o_min (h_conds H' d) = Some a -> o_max (h_conds H' d) <> Some a).
Proof.
  intros X R. destruct (lists_there _ _ X) as (Ti & Tm & TM & Tn). unfold deepcopy in R.
  apply bindp_inv in R as (x & H1 & E & R). injection E as <- <-.
  apply bindp_inv in R as (x & H1 & E & R). destruct (copy_ints_spec _ _ _ _ Ti E) as (K1 & ci & -> & V1 & T1 & L1). clear E.
  apply bindp_inv in R as (x & H2 & E & R).
  destruct (copy_nums_spec _ _ _ _ (there_kept _ _ _ K1 Tm) E) as (K2 & cm & -> & V2 & T2 & L2). clear E.
  pose proof (keeps_trans _ _ _ K1 K2) as K02.
  apply bindp_inv in R as (x & H3 & E & R).
  assert (P : keeps H2 H3 /\ exists cM, x = Ok cM /\ option_map (h_nums H3) cM = option_map (h_nums H) (o_max (h_conds H c)) /\ there H3 cM /\
     (forall a, cM = Some a -> h_next H1 <= a)%nat /\
     ((forall a, o_min (h_conds H c) = Some a -> o_max (h_conds H c) <> Some a) -> forall a, cM = Some a -> (h_next H2 <= a)%nat)).
  { destruct (match o_min (h_conds H c), o_max (h_conds H c) with Some a, Some b => (a =? b)%nat | _, _ => false end) eqn:S.
    - destruct (o_min (h_conds H c)) as [a|] eqn:Ea; [|discriminate S]. destruct (o_max (h_conds H c)) as [b|] eqn:Eb; [|discriminate S].
      apply Nat.eqb_eq in S. subst b. injection E as <- <-. split; [apply keeps_refl|]. exists cm. split; [auto|].
      rewrite (nums_kept _ _ _ K1 Tm) in V2. split; [exact V2|]. split; [exact T2|]. split; [exact L2|]. intros D. destruct (D a eq_refl eq_refl).
    - destruct (copy_nums_spec _ _ _ _ (there_kept _ _ _ K02 TM) E) as (K3 & cM & -> & V3 & T3 & L3). split; [exact K3|]. exists cM. split; [auto|].
      rewrite (nums_kept _ _ _ K02 TM) in V3. split; [exact V3|]. split; [exact T3|]. split; [|auto]. intros a A. specialize (L3 a A). pose proof (proj1 K2). lia. }
  clear E. destruct P as (K3 & cM & -> & V3 & T3 & L3 & D3). pose proof (keeps_trans _ _ _ K02 K3) as K03.
  apply bindp_inv in R as (x & H4 & E & R).
  destruct (copy_texts_spec _ _ _ _ (there_kept _ _ _ K03 Tn) E) as (K4 & cn & -> & V4 & T4 & L4). clear E.
  pose proof (keeps_trans _ _ _ K03 K4) as K04.
  rewrite (nums_kept _ _ _ K1 Tm) in V2. rewrite (texts_kept _ _ _ K03 Tn) in V4.
  pose proof (keeps_trans _ _ _ K3 K4) as K24. pose proof (keeps_trans _ _ _ K2 K24) as K14.
  rewrite <- (ints_kept _ _ _ K14 T1) in V1. rewrite <- (nums_kept _ _ _ K24 T2) in V2. rewrite <- (nums_kept _ _ _ K4 T3) in V3.
  injection R as <- R.
  assert (K5 : keeps H4 H') by (rewrite <- R; exact (new_cond_keeps (mkRobj ci cm cM cn (o_imp (h_conds H c))) H4)).
  assert (C5 : h_conds H' (h_next H4) = mkRobj ci cm cM cn (o_imp (h_conds H c)) /\ h_next H' = S (h_next H4)).
  { rewrite <- R. cbn. rewrite update_eq. auto. }
  destruct C5 as (C5 & N5). pose proof (keeps_trans _ _ _ K04 K5) as K05. split; [exact K05|].
  pose proof (proj1 K1). pose proof (proj1 K2). pose proof (proj1 K3). pose proof (proj1 K4).
  exists (h_next H4). split; [auto|]. split.
  { unfold view. rewrite C5. unfold deref. cbn [o_idx o_min o_max o_names o_imp].
    rewrite <- R. cbn. rewrite V1, V2, V3, V4. reflexivity. }
  split.
  { split; [lia|]. rewrite C5, N5. intros a A. apply holds_mk in A. destruct A as [A|[A|[A|A]]].
    - specialize (T1 a A). lia.
    - specialize (T2 a A). lia.
    - specialize (T3 a A). lia.
    - specialize (T4 a A). lia. }
  split; [lia|]. rewrite C5. split.
  { intros a A. apply holds_mk in A. destruct A as [A|[A|[A|A]]].
    - exact (L1 a A).
    - specialize (L2 a A). lia.
    - specialize (L3 a A). lia.
    - specialize (L4 a A). lia. }
  intros D a A B. cbn in A, B. specialize (D3 D a B). specialize (T2 a A). lia.
Qed.

(** A condition that exists and has two lists of bounds *)
Definition sane (H : heap) (c : nat) : Prop :=
  exists_in H c /\ forall a, o_min (h_conds H c) = Some a -> o_max (h_conds H c) <> Some a.

Lemma deepcopy_new c H r H' : sane H c -> deepcopy c H = (r, H') ->
  keeps H H' /\ exists d, r = Ok d /\ view H' d = view H c /\ brand_new H H' d.
Proof.
  intros (X & D) R. destruct (deepcopy_spec _ _ _ _ X R) as (K & d & E & V & X' & L & N & D'). split; [exact K|].
  exists d. split; [exact E|]. split; [exact V|]. split; [exact X'|]. split; [exact L|]. auto.
Qed.

Lemma sane_new H H' c : brand_new H H' c -> sane H' c.
Proof. intros (X & _ & _ & D). split; auto. Qed.

Lemma sane_kept H H' c : keeps H H' -> sane H c -> sane H' c.
Proof. intros K (X & D). split; [exact (exists_kept _ _ _ K X)|]. destruct (proj2 K c (proj1 X)) as (_ & _ & _ & ->). exact D. Qed.

(** ** The conditions of the children *)

Lemma r_one_feature_spec sett q f lo hi H o H' : r_one_feature sett q f lo hi H = (o, H') ->
  keeps H H' /\ rmap (view H') o = one_feature sett q f lo hi /\ forall c, o = Ok c -> brand_new H H' c.
Proof.
  unfold r_one_feature, one_feature. intros R. apply bindp_inv in R as (x & H1 & E & R). injection E as <- <-.
  destruct (py_index (tree_names q) f) as [name|e]; [|destruct R as (-> & ->); split; [apply keeps_refl|]; split; [reflexivity|discriminate]].
  cbn [rbind]. apply r_rebuild_spec in R as (K & V & C). split; [exact K|]. split; [exact V|]. intros c E. apply (C c E).
Qed.

Lemma at_pos_lt A (l : list A) i x : at_pos l i = Ok x -> (i < List.length l)%nat.
Proof. unfold at_pos. destruct (nth_error l i) eqn:E; [|discriminate]. intros _. apply nth_error_Some. congruence. Qed.

Lemma update_nth_view H d mx l : o_max (h_conds H d) = Some mx ->
  (forall a, o_min (h_conds H d) = Some a -> o_max (h_conds H d) <> Some a) ->
  view (put_nums mx l H) d =
  mkCond (c_idx (view H d)) (c_min (view H d)) (Some l) (c_names (view H d)) (c_imp (view H d)).
Proof.
  intros E D. destruct (edit_nums_shows H d mx l) as (A1 & A2 & A3 & A4 & A5 & A6 & A7).
  destruct (view (put_nums mx l H) d) as [i m M n b]. cbn in *. rewrite A1, A2, A3, (A6 E).
  rewrite A5; [reflexivity|]. intros F. exact (D mx F E).
Qed.

Lemma update_nth_view_min H d mn l : o_min (h_conds H d) = Some mn ->
  (forall a, o_min (h_conds H d) = Some a -> o_max (h_conds H d) <> Some a) ->
  view (put_nums mn l H) d =
  mkCond (c_idx (view H d)) (Some l) (c_max (view H d)) (c_names (view H d)) (c_imp (view H d)).
Proof.
  intros E D. destruct (edit_nums_shows H d mn l) as (A1 & A2 & A3 & A4 & A5 & A6 & A7).
  destruct (view (put_nums mn l H) d) as [i m M n b]. cbn in *. rewrite A1, A2, A3, (A4 E).
  rewrite A7; [reflexivity|]. exact (D mn E).
Qed.

Lemma put_new_keeps H H1 a l : keeps H H1 -> (h_next H <= a)%nat -> keeps H (put_nums a l H1).
Proof. intros (L & K) A. split; [exact L|]. intros z Z. cbn. rewrite update_ne by lia. apply K, Z. Qed.

Lemma put_brand_new H H1 a l c : brand_new H H1 c -> brand_new H (put_nums a l H1) c.
Proof. intros B. exact B. Qed.

Definition is_sane (H : heap) (o : option nat) : Prop := match o with Some c => sane H c | None => True end.

Lemma r_left_spec sett q condition f th H o H' : is_sane H condition -> r_left sett q condition f th H = (o, H') ->
  keeps H H' /\ rmap (view H') o = left_condition sett q (option_map (view H) condition) f th /\ forall c, o = Ok c -> brand_new H H' c.
Proof.
  intros S R. unfold r_left in R. unfold left_condition. apply bindp_inv in R as (x & H1 & E & R). injection E as <- <-.
  destruct (py_index (q_xmins q) f) as [xmin|e]; [|destruct R as (-> & ->); split; [apply keeps_refl|]; split; [reflexivity|discriminate]].
  cbn [rbind]. apply bindp_inv in R as (x & H1 & E & R). apply r_one_feature_spec in E as (K1 & V1 & C1). rewrite <- V1.
  destruct x as [nw|e]; [|destruct R as (-> & ->); split; [exact K1|]; split; [reflexivity|discriminate]]. cbn [rmap rbind].
  specialize (C1 nw eq_refl).
  destruct condition as [c|]; cbn [option_map].
  2:{ injection R as <- <-. split; [exact K1|]. split; [reflexivity|]. intros c E. injection E as <-. exact C1. }
  cbn in S. pose proof (sane_kept _ _ _ K1 S) as S1. rewrite <- (view_kept _ _ _ K1 (proj1 S)).
  apply bindp_inv in R as (x & H2 & E & R). injection E as <- <-.
  destruct (view_fields H1 c) as (Gi & Gm & GM & Gn). rewrite Gi.
  destruct (o_idx (h_conds H1 c)) as [ai|] eqn:Oi; cbn [option_map need rbind].
  2:{ cbn in R. injection R as <- <-. split; [exact K1|]. split; [reflexivity|discriminate]. }
  apply bindp_inv in R as (x & H2 & E & R). injection E as <- <-.
  apply bindp_inv in R as (x & H2 & E & R). injection E as <- <-.
  destruct (index_of Z.eqb f (h_ints H1 ai)) as [place|].
  - apply bindp_inv in R as (x & H2 & E & R). apply (deepcopy_new _ _ _ _ S1) in E as (K2 & d & -> & V2 & B2).
    pose proof (keeps_trans _ _ _ K1 K2) as K02.
    assert (B : brand_new H H2 d) by exact (brand_new_from _ _ _ _ (proj1 K1) B2).
    apply bindp_inv in R as (x & H3 & E & R). injection E as <- <-.
    destruct (view_fields H2 d) as (Fi & Fm & FM & Fn). rewrite V2 in Fi, Fm, FM, Fn.
    rewrite FM. destruct (o_max (h_conds H2 d)) as [aM|] eqn:OM; cbn [option_map need rbind].
    2:{ cbn in R. injection R as <- <-. split; [exact K02|]. split; [reflexivity|discriminate]. }
    apply bindp_inv in R as (x & H3 & E & R). injection E as <- <-.
    apply bindp_inv in R as (x & H3 & E & R). injection E as <- <-.
    apply bindp_inv in R as (x & H3 & E & R). injection E as <- <-.
    destruct (at_pos (h_nums H2 aM) place) as [old|e] eqn:At.
    2:{ destruct R as (-> & ->). split; [exact K02|]. split; [reflexivity|discriminate]. }
    cbn [rbind]. apply at_pos_lt in At.
    apply bindp_inv in R as (x & H3 & E & R). rewrite set_item_ok in E by exact At. injection E as <- <-. injection R as <- <-.
    assert (La : (h_next H <= aM)%nat) by (destruct B as (_ & _ & N & _); apply N; right; left; constructor 2; exact OM).
    split; [exact (put_new_keeps _ _ _ _ K02 La)|]. split; [|intros c' E; injection E as <-; exact B].
    cbn [rmap]. rewrite update_nth_view; [|exact OM|destruct B as (_ & _ & _ & D); exact D]. rewrite V2, Gi. reflexivity.
  - apply r_band_spec in R; [|exact (proj1 S1)|exact (proj1 C1)]. destruct R as (K2 & V2 & C2).
    split; [exact (keeps_trans _ _ _ K1 K2)|]. split; [exact V2|]. intros d E. exact (brand_new_from _ _ _ _ (proj1 K1) (C2 d E)).
Qed.

Lemma r_right_spec sett q condition f th H o H' : is_sane H condition -> r_right sett q condition f th H = (o, H') ->
  keeps H H' /\ rmap (view H') o = right_condition sett q (option_map (view H) condition) f th /\ forall c, o = Ok c -> brand_new H H' c.
Proof.
  intros S R. unfold r_right in R. unfold right_condition. apply bindp_inv in R as (x & H1 & E & R). injection E as <- <-.
  destruct (py_index (q_xmaxs q) f) as [xmax|e]; [|destruct R as (-> & ->); split; [apply keeps_refl|]; split; [reflexivity|discriminate]].
  cbn [rbind]. apply bindp_inv in R as (x & H1 & E & R). apply r_one_feature_spec in E as (K1 & V1 & C1). rewrite <- V1.
  destruct x as [nw|e]; [|destruct R as (-> & ->); split; [exact K1|]; split; [reflexivity|discriminate]]. cbn [rmap rbind].
  specialize (C1 nw eq_refl).
  destruct condition as [c|]; cbn [option_map].
  2:{ injection R as <- <-. split; [exact K1|]. split; [reflexivity|]. intros c E. injection E as <-. exact C1. }
  cbn in S. pose proof (sane_kept _ _ _ K1 S) as S1. rewrite <- (view_kept _ _ _ K1 (proj1 S)).
  apply bindp_inv in R as (x & H2 & E & R). injection E as <- <-.
  destruct (view_fields H1 c) as (Gi & Gm & GM & Gn). rewrite Gi.
  destruct (o_idx (h_conds H1 c)) as [ai|] eqn:Oi; cbn [option_map need rbind].
  2:{ cbn in R. injection R as <- <-. split; [exact K1|]. split; [reflexivity|discriminate]. }
  apply bindp_inv in R as (x & H2 & E & R). injection E as <- <-.
  apply bindp_inv in R as (x & H2 & E & R). injection E as <- <-.
  destruct (index_of Z.eqb f (h_ints H1 ai)) as [place|].
  - apply bindp_inv in R as (x & H2 & E & R). apply (deepcopy_new _ _ _ _ S1) in E as (K2 & d & -> & V2 & B2).
    pose proof (keeps_trans _ _ _ K1 K2) as K02.
    assert (B : brand_new H H2 d) by exact (brand_new_from _ _ _ _ (proj1 K1) B2).
    apply bindp_inv in R as (x & H3 & E & R). injection E as <- <-.
    destruct (view_fields H2 d) as (Fi & Fm & FM & Fn). rewrite V2 in Fi, Fm, FM, Fn.
    rewrite Fm. destruct (o_min (h_conds H2 d)) as [am|] eqn:Om; cbn [option_map need rbind].
    2:{ cbn in R. injection R as <- <-. split; [exact K02|]. split; [reflexivity|discriminate]. }
    apply bindp_inv in R as (x & H3 & E & R). injection E as <- <-.
    apply bindp_inv in R as (x & H3 & E & R). injection E as <- <-.
    apply bindp_inv in R as (x & H3 & E & R). injection E as <- <-.
    destruct (at_pos (h_nums H2 am) place) as [old|e] eqn:At.
    2:{ destruct R as (-> & ->). split; [exact K02|]. split; [reflexivity|discriminate]. }
    cbn [rbind]. apply at_pos_lt in At.
    apply bindp_inv in R as (x & H3 & E & R). rewrite set_item_ok in E by exact At. injection E as <- <-.
    assert (La : (h_next H <= am)%nat) by (destruct B as (_ & _ & N & _); apply N; right; left; constructor; exact Om).
    pose proof (put_new_keeps _ _ _ (set_nth place (py_max th old) (h_nums H2 am)) K02 La) as K03.
    assert (B3 := put_brand_new _ _ am (set_nth place (py_max th old) (h_nums H2 am)) _ B).
    assert (V3 : view (put_nums am (set_nth place (py_max th old) (h_nums H2 am)) H2) d =
      mkCond (c_idx (view H1 c)) (Some (set_nth place (py_max th old) (h_nums H2 am))) (c_max (view H1 c)) (c_names (view H1 c)) (c_imp (view H1 c))).
    { rewrite update_nth_view_min; [|exact Om|destruct B as (_ & _ & _ & D); exact D]. rewrite V2. reflexivity. }
    rewrite FM. destruct (o_max (h_conds H2 d)) as [aM|] eqn:OM; cbn [option_map need rbind].
    2:{ cbn in R. injection R as <- <-. split; [exact K03|]. split; [reflexivity|discriminate]. }
    assert (Dn : aM <> am) by (intros ->; destruct B as (_ & _ & _ & D); exact (D am Om OM)).
    apply bindp_inv in R as (x & H3 & E & R). injection E as <- <-.
    apply bindp_inv in R as (x & H3 & E & R). injection E as <- <-.
    apply bindp_inv in R as (x & H3 & E & R). injection E as <- <-.
    cbn [h_nums put_nums] in R. rewrite update_ne in R by exact Dn.
    destruct (at_pos (h_nums H2 aM) place) as [old'|e] eqn:At'.
    2:{ destruct R as (-> & ->). split; [exact K03|]. split; [reflexivity|discriminate]. }
    cbn [rbind]. apply at_pos_lt in At'.
    apply bindp_inv in R as (x & H3 & E & R). rewrite set_item_ok in E by (cbn; rewrite update_ne by exact Dn; exact At').
    injection E as <- <-. injection R as <- <-.
    assert (La' : (h_next H <= aM)%nat) by (destruct B as (_ & _ & N & _); apply N; right; left; constructor 2; exact OM).
    split; [exact (put_new_keeps _ _ _ _ K03 La')|]. split; [|intros c' E; injection E as <-; exact B].
    cbn [rmap]. rewrite update_nth_view; [|exact OM|destruct B as (_ & _ & _ & D); exact D]. rewrite V3, Gi. cbn. rewrite update_ne by exact Dn. reflexivity.
  - apply r_band_spec in R; [|exact (proj1 S1)|exact (proj1 C1)]. destruct R as (K2 & V2 & C2).
    split; [exact (keeps_trans _ _ _ K1 K2)|]. split; [exact V2|]. intros d E. exact (brand_new_from _ _ _ _ (proj1 K1) (C2 d E)).
Qed.

(** ** All the rules *)

Definition batch (H H' : heap) (cs : list nat) : Prop :=
  keeps H H' /\ Forall (brand_new H H') cs /\ ForallOrdPairs (strangers H') cs.

Lemma strangers_kept H H' c d : keeps H H' -> exists_in H c -> exists_in H d -> strangers H c d -> strangers H' c d.
Proof.
  intros (_ & K) (C & _) (D & _) (N & A & B). unfold strangers, apart. destruct (K c C) as (_ & _ & _ & ->), (K d D) as (_ & _ & _ & ->). auto.
Qed.

Lemma strangers_later H H1 H2 c d : keeps H1 H2 -> brand_new H H1 c -> brand_new H1 H2 d -> strangers H2 c d.
Proof.
  intros K (X & _) (_ & L & N & _). destruct (proj2 K c (proj1 X)) as (_ & _ & _ & E). destruct X as (X & X').
  split; [lia|]. unfold apart. rewrite E. split; intros a A B; [specialize (X' a A); specialize (N a B)|specialize (X' a B); specialize (N a A)]; lia.
Qed.

Lemma batch_nil H H' : keeps H H' -> batch H H' [].
Proof. intros K. split; [exact K|]. split; constructor. Qed.

Lemma batch_one H H' d : keeps H H' -> brand_new H H' d -> batch H H' [d].
Proof. intros K B. split; [exact K|]. split; [auto|]. constructor; constructor. Qed.

Lemma batch_app H H1 H2 cs ds : batch H H1 cs -> batch H1 H2 ds -> batch H H2 (cs ++ ds).
Proof.
  intros (K1 & F1 & P1) (K2 & F2 & P2). split; [exact (keeps_trans _ _ _ K1 K2)|]. split.
  - apply Forall_app. split.
    + revert F1. apply Forall_impl. intros c B. exact (brand_new_kept _ _ _ _ B K2).
    + revert F2. apply Forall_impl. intros c B. exact (brand_new_from _ _ _ _ (proj1 K1) B).
  - induction P1 as [|c cs Pc P1 IH]; [exact P2|]. inversion F1 as [|? ? Bc F1']; subst. cbn. constructor; [|exact (IH F1')].
    apply Forall_app. split.
    + rewrite Forall_forall in *. intros d D. apply (strangers_kept H1); [exact K2|exact (proj1 Bc)|exact (proj1 (F1' d D))|exact (Pc d D)].
    + revert F2. apply Forall_impl. intros d B. exact (strangers_later H _ _ _ _ K2 Bc B).
Qed.

Lemma batch_views H H1 H2 cs : batch H H1 cs -> keeps H1 H2 -> map (fun c => Some (view H2 c)) cs = map (fun c => Some (view H1 c)) cs.
Proof.
  intros (_ & F & _) K. apply map_ext_in. intros c C. rewrite Forall_forall in F. rewrite (view_kept _ _ _ K (proj1 (F c C))). auto.
Qed.

(** Lines 130-142 *)
Lemma r_record G q (leaf : bool) c values s s' (rules : list (option nat)) H : sane H c ->
  (if negb leaf then rbind values (fun values => record_rule G q (view H c) values s) else Ok s) = Ok s' ->
  exists cs H', (if negb leaf then d <- deepcopy c; ret (rules ++ [Some d]) else ret rules) H = (Ok (rules ++ map Some cs), H') /\
    batch H H' cs /\ exists rs, s_rules s' = s_rules s ++ rs /\ map r_cond rs = map (fun c => Some (view H' c)) cs.
Proof.
  intros S E. destruct leaf; cbn [negb] in *.
  - injection E as <-. exists [], H. cbn. rewrite app_nil_r. split; [auto|]. split; [apply batch_nil, keeps_refl|]. exists []. rewrite app_nil_r. auto.
  - destruct values as [v|e]; [|discriminate E]. cbn [rbind] in E. unfold record_rule in E.
    destruct (node_rule (g_env G) q (Some (view H c)) v) as [r|e] eqn:Nr; [|discriminate E]. cbn [rbind] in E.
    apply node_rule_ok in Nr as (Rc & _). apply append_to_ok in E as (Es & _).
    destruct (deepcopy c H) as [r0 H1] eqn:Dc. destruct (deepcopy_new _ _ _ _ S Dc) as (K & d & -> & V & B).
    exists [d], H1. unfold bindp. rewrite Dc. split; [reflexivity|]. split; [apply batch_one; auto|]. exists [r]. split; [exact Es|].
    cbn. rewrite V, Rc. auto.
Qed.

Lemma r_visitor_spec limit G T q : forall node condition s s' rules H, is_sane H condition ->
  visitor limit G T q node (option_map (view H) condition) s = Ok s' ->
  exists cs H', r_visitor limit (e_sort (g_env G)) T q node condition rules H = (Ok (rules ++ map Some cs), H') /\
    batch H H' cs /\ exists rs, s_rules s' = s_rules s ++ rs /\ map r_cond rs = map (fun c => Some (view H' c)) cs.
Proof.
  induction limit as [|limit IH]; intros node condition s s' rules H S E; [discriminate E|].
  cbn [visitor] in E. cbv zeta in E. cbn [r_visitor]. unfold bindp at 1, lift at 1.
  destruct (py_index (t_feature T) node) as [f|e]; [|discriminate E]. cbn [rbind] in E.
  destruct (negb (f =? TREE_UNDEFINED)).
  - unfold bindp at 1, lift at 1.
    destruct (py_index (t_threshold T) node) as [th|e]; [|discriminate E]. cbn [rbind] in E.
    destruct (r_left (e_sort (g_env G)) q condition f th H) as [o H1] eqn:Lf. unfold bindp at 1. rewrite Lf.
    apply (r_left_spec _ _ _ _ _ _ _ _ S) in Lf as (K1 & V1 & C1). rewrite <- V1 in E. destruct o as [c|e]; [|discriminate E]. cbn [rmap rbind] in E.
    specialize (C1 c eq_refl).
    match type of E with rbind ?x _ = _ => destruct x as [s1|e] eqn:R1; [|discriminate E] end. cbn [rbind] in E.
    destruct (r_record G q (q_leaf q) c _ s s1 rules H1 (sane_new _ _ _ C1) R1) as (cs1 & H2 & E1 & B1 & rs1 & Q1 & W1).
    unfold bindp at 1. rewrite E1.
    unfold bindp at 1, lift at 1. destruct (py_index (t_left T) node) as [ch|e]; [|discriminate E]. cbn [rbind] in E.
    match type of E with rbind ?x _ = _ => destruct x as [s2|e] eqn:R2; [|discriminate E] end. cbn [rbind] in E.
    rewrite <- (view_kept _ _ _ (proj1 B1) (proj1 C1)) in R2.
    destruct (IH ch (Some c) s1 s2 (rules ++ map Some cs1) H2 (sane_kept _ _ _ (proj1 B1) (sane_new _ _ _ C1)) R2) as (cs2 & H3 & E2 & B2 & rs2 & Q2 & W2).
    unfold bindp at 1. rewrite E2.
    pose proof (keeps_trans _ _ _ K1 (keeps_trans _ _ _ (proj1 B1) (proj1 B2))) as K03.
    assert (S3 : is_sane H3 condition) by (destruct condition; [exact (sane_kept _ _ _ K03 S)|exact S]).
    assert (V3 : option_map (view H) condition = option_map (view H3) condition).
    { destruct condition as [x|]; auto. cbn. f_equal. symmetry. apply view_kept; [exact K03|exact (proj1 S)]. }
    rewrite V3 in E.
    destruct (r_right (e_sort (g_env G)) q condition f th H3) as [o H4] eqn:Rt. unfold bindp at 1. rewrite Rt.
    apply (r_right_spec _ _ _ _ _ _ _ _ S3) in Rt as (K4 & V4 & C4). rewrite <- V4 in E. destruct o as [c'|e]; [|discriminate E]. cbn [rmap rbind] in E.
    specialize (C4 c' eq_refl).
    match type of E with rbind ?x _ = _ => destruct x as [s3|e] eqn:R3; [|discriminate E] end. cbn [rbind] in E.
    destruct (r_record G q (q_leaf q) c' _ s2 s3 ((rules ++ map Some cs1) ++ map Some cs2) H4 (sane_new _ _ _ C4) R3) as (cs3 & H5 & E3 & B3 & rs3 & Q3 & W3).
    unfold bindp at 1. rewrite E3.
    unfold bindp at 1, lift at 1. destruct (py_index (t_right T) node) as [ch'|e]; [|discriminate E]. cbn [rbind] in E.
    rewrite <- (view_kept _ _ _ (proj1 B3) (proj1 C4)) in E.
    destruct (IH ch' (Some c') s3 s' (((rules ++ map Some cs1) ++ map Some cs2) ++ map Some cs3) H5 (sane_kept _ _ _ (proj1 B3) (sane_new _ _ _ C4)) E)
      as (cs4 & H6 & E4 & B4 & rs4 & Q4 & W4).
    rewrite E4. exists (cs1 ++ cs2 ++ cs3 ++ cs4), H6. rewrite !map_app, !app_assoc. split; [reflexivity|].
    pose proof (batch_app _ _ _ _ _ B3 B4) as B34.
    pose proof (batch_app _ _ _ _ _ (batch_nil _ _ K4) B34) as B34'. cbn in B34'.
    pose proof (batch_app _ _ _ _ _ B2 B34') as B24. pose proof (batch_app _ _ _ _ _ B1 B24) as B14.
    pose proof (batch_app _ _ _ _ _ (batch_nil _ _ K1) B14) as B14'. cbn in B14'. rewrite !app_assoc in B14'.
    split; [exact B14'|]. exists (rs1 ++ rs2 ++ rs3 ++ rs4). rewrite Q4, Q3, Q2, Q1, !app_assoc. split; [reflexivity|].
    rewrite !map_app, W1, W2, W3, W4.
    rewrite (batch_views _ _ _ _ B3 (proj1 B4)), (batch_views _ _ _ _ B2 (proj1 B34')), (batch_views _ _ _ _ B1 (proj1 B24)). reflexivity.
  - destruct (q_leaf q).
    + destruct (py_index (t_value T) node) as [v|e]; [|discriminate E]. cbn [rbind] in E.
      match type of E with rbind ?x _ = _ => destruct x as [r|e] eqn:Nr; [|discriminate E] end. cbn [rbind] in E.
      apply node_rule_ok in Nr as (Rc & _). apply append_to_ok in E as (Es & Ne). rewrite Rc in Ne.
      destruct condition as [c|]; [|destruct (Ne eq_refl)]. cbn in S.
      destruct (deepcopy c H) as [r0 H1] eqn:Dc. unfold bindp. rewrite Dc. destruct (deepcopy_new _ _ _ _ S Dc) as (K & d & -> & V & B).
      exists [d], H1. split; [reflexivity|]. split; [apply batch_one; auto|]. exists [r]. split; [exact Es|]. cbn. rewrite V, Rc. auto.
    + injection E as <-. exists [], H. cbn. rewrite app_nil_r. split; [reflexivity|]. split; [apply batch_nil, keeps_refl|].
      exists []. rewrite app_nil_r. auto.
Qed.
